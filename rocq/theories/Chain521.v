(** * Chain521: certificate of (n - 1) G = - G on P-521.  Written by
    /verif/tools/gen_chain.py; checked in [Nist521]. *)
From Coq Require Import ZArith List.
From Verif Require Import Chain.
Import ListNotations.
Open Scope Z_scope.

Definition chain521 : list step := [
Dbl 0x347ba3c40c0c430b0802c88f5d36562faf732eef3a40bef18ec2451904506e0ff0405300f0d5bf5f354a0e75f61880f49b9e4c63a204f704634bc157cb01e52c8 0x433c219024277e7e682fcb288148c282747403279b1ccc06352c6e5505d769be97b3b204da6ef55507aa104a3a35c5af41cf2fa364d60fd967f43e3933ba6d783d 0xf4bb8cc7f86db26700a7f3eceeeed3f0b5c6b5107c4da97740ab21a29906c42dbbb3e377de9f251f6b93937fa99a3248f4eafcbe95edc0f4f71be356d661f41b02 0x83496c7692dc866b656e73a2e4dad331ce2861599de873aeeccbba5a5a93e37f22ed99599d80f20421540d76ed6d39f99c6419105caf5a6934054044fe08784529 0x0 (-0xe3551cdcaf00217196b87a6650510868186b84520f19fe5976aff403808d63250533b1c6107bcc626b42ae4a5aaac98c5eaa7eb69faa7ccc5c0211d828e1a7cf17) 0x5613b1f3605e63f7c49580f15518d97c0da2f85aacac9cafae511e06466f254a24618b99001e3c30da53f369b69217d183413a9b7f36975015c7e6cbe9436c9 0xd752925bea0d03ae25c8d2d373aa31b2153ca7e70f19dfd325242b970364482d3b8e50ae6799ee8107ea58caa96fb5fe50d3d68e084d4e9b22b11b9f92da574a;
Dbl 0x18fdbfbfc0d1a05573cef602157563a195912da1eb4680fe49587ccef55793c2bce6fbb4366797e3a1f74734832ecc4337ed305c68084c56b0eed234d41c1cccc58 0x35b5df64ae2ac204c354b483487c9070cdc61c891c5ff39afc06c5d55541d3ceac8659e24afe3d0750e8b88e9f078af066a1d5025b08e5a5e2fbc87412871902f3 0x82096f84261279d2b673e0178eb0b4abb65521aef6e6e32e1b5ae63fe2f19907f279f283e54ba385405224f750a95b85eebb7faef04699d1d9e21f47fc346e4d0d 0xd86422b75fcbc79a4db16a538cc3211a6ade69e7ebcd86b3925a87fb09595efeb2d58228f70b84db6c157bb9b2e3abedb2d5aa109cd2a3384f875c5213354754a 0x0 0x163c5d238271b64d144cc76acbe87ebe8e421dbc929431b50d34465d39f2d6efc602c9f00460d82797f950b67ac0a9387a9aeafe5161fe7be006c98833a4f33fa38 0x13847bc42650ee082f2c9d5d1db8b080417a8bc904d0bd7492ae91b32c99bf1141f919075f846823c69bfed6d456e2f18cb96b48c1b183c9f3ee491c1d6fc97952d 0xa8ff02625e6e4da7710c82bb2ff69d255417ae5cc26d683f6788dcc842ab425206724d7a11f76b8002ca61cc1a88479ad4ade4b5c07acbc9aa371c8fd62eb1e9f;
Dbl 0x52b1a74a9daa130a7a20f39728a28d19cc4956ec13c77aab23e3ebe516035de97d3143f8a59d10f316f45123dc7dafc10f92f397f228c303b09c98d541eccd17db 0x822c40fb6301f7262a8348396b010e25bd4e29d8a9b003e0a8b8a3b05f826298f5bfea5b8579f49f08b598c1bc8d79e1ab56289b5a6f4040586f9ea54aa78ce68 0x16331911d5542fc482048fdab6e78853b9a44f8ede9e2c0715b5083de610677a8f189e9c0aa5911b4bff0ba0df065c578699f3ba940094713538ad642f11f17801c 0x2d931b54f7faa29260ac7fffb1cc7f8e71f139eb91c4f35cf17b3b9a4f49ada51d2a5b3c92a69dbd605d5f02833eb3524bec7278a561f1a1dd74ce89bddca0348b 0x0 0x191a0ba879fd0a6be06efbb4b34c6c708a0a22c0d07b394604ebec633417dad83a46798d77b2d8e0af4d9df3bb28f6063b38fad1cf4e82f2badecd7ceeb319edba 0xd5b253a47c0b46a3b7f5badb585c556661a78e0b8da774c1d581cca7c996196b4704b7372bedca60060e2e2ba24ae19b27a06dd2040037304dd977ef8b9b3bef5 0x75c5f9fae4cc7c441d92724ac9949f0ba1aa267c86d49478b158943de6a74eea23693fbcb2d4b9a56dde26342e3b8486a3c75da74c1c04562668b4ba9fa715d40;
Dbl 0x16ca36115331cdf6ad1d66015f518ddec8d37417b3f182ab44eecc87a955a0b178fe685deff39a5e350cacd6697470079f79b52cb0daee54b2a88b469f0c0033241 0x1d17d10d8a89c8ad05dda97da26ac743b0b2a87f66192fd3f3dd632f8d20b188a52943ff18861ca00a0e5965da7985630df0dbf5c8007dcdc533a6c508f81a8402f 0x7a37343c582d77001fc714b18d3d3e69721335e4c3b800d50ec7ca30c94b6b82c1c182e1398db547aa0b3075ac9d9988529e3004d28d18633352e272f89bc73abe 0x36a5b3370d9394a204cd9ca970039ca750aa5aa7290802feccb5574233ed0d9f3cc7beb42ff5d5494fa5c32e7430816d3ba7a32d359f1727b24c8d99c528d08e38 0x1 0x1f989e021d44d4a5c982f8e3ee08904498fde449f8100e20bb57374d5d42632cff74ad0bf63a63277f451649638d2a1588a0bade8bd63bf5655c391685edf20a085 0x103b0822c8795224cca807b86f072e9b7063adbee51a26efe3ec850442396e3e17d8d78bea7e750c65970ccf4b0c543c7d356d85e133e93873b57bbcded1f36687e 0x26eb3d8659621c3de0540abf21ee5f0c1926b3d9bb957d4e5587bb016e8bc4ede8d8eef0bd67c8e8c4030687732a9e12f4447f3829b221345b8c95f745f77baea2;
Dbl 0xddb7433f16618740e9b6a652a662399fae0e32e405007c3af63a5473ce40e94749fb52c5bcadd9aff06e39ccf53dd05eaa1bafeb2a486abe0152ab162de8762071 0x166ba3596d20a3a469443707af94ba15b343e3e16654e068038dba7ecefb9e5ebd6ea04a35dc73596ec67d69bd6ba5d1f949cf7475cd6c5c78247915ab876e56a9e 0x477b0ff4d1940ab8111635e75ff3e08268ff7bd8bf5ff01967c1df01c65c2dd77de204cdb818cdd6b9b74de1c7ea0f36dfcd98c965ab96163695ca9a9914a156aa 0x6ac2db41d6925089c997275f2d60d2dfd6ec49dffc44f6bf04fa8b0be251329e7baa3b4e2a9a9469b47dbfc1d0ddf9114a70c81523311714d0f2daf5d70ac2d591 0x0 (-0x48bc238c9cda27c42b94a4cd3c06295353f384d9408ee23bcf6d3f5573d668d0ac713e425babb10cd5507c7154d5c97ef9a64c545aacd1c819d6def7008d862c1dc) 0x6002f6a611403c1c428a797e079b4fd2fb544c0b67c24ffc7165b5b1261d44e58d2a40b916fc6240763665d593fb6c7a2d7bea933f43ab5c7f2742d6cebded791b 0x2e3b524ef07c26c79766b411212fdfa848b0734148138c45cde7345c0e5bb7960e6095dfb25bb5e6cbacfc1e52871c9257e9649a16417b0d4367f72076bce02c67;
Dbl 0x595a9601b3ee7aad0a4bf61fcd9ffc649c4311eb3b0381d306cfdb7d0370efe6e2b27f2c14020097a2da84af1c9ea77d9fcb69be7a328941ed8b7a76e1f0a7a93e 0x1ab9aa17dce1112ecd14f3d7c0392fec2a67ebdbba81860bbacb614b9ccf8872d271bebd3c5efda3773a7c02c1603e7001df5aab8029a04fd41b53dc38ce320f742 0x748d70eb848e920573aa10217c57b9586d9bb1cc8b2fb1dc1d0c63ba369e87ab8bac165ba1508d4b10f4a7b9e3af958043c1c1a5dba0653dd45af17058a5f8df5b 0x1bb1f941903f92759c2f432fef5b8a2988dbf805abd35a5c48c25933322c15ebeafce18cf97d75b5f78c0166fc0b6761f76a74c8f5a3cc0ca409253972b93c4735b 0x1 (-0x2d910ec4b4ec0212a653917ef7f33ef2993c2627d585dae33b00686e57a1927580079f0c723d2106f13bbe2cd7ffb0f385121da30efe6c86b246d5186301b24c1cf) 0xf980e2d801a29ec787594d64aa4e2b3f862b7587ed59b815286cb1d5e5b111176d795f3892925a8f0dca45d14784adafc8ac5cbd94eef30a0285106df5224e17a 0x4d55639f1b43907a6591e81678aace90ab25b546f0c955d8d21c64c8f1f97f9b722e5d8c659a8c515c0ab6df9388e8836ae1f326e8cf75f5a40a88c38fb08232fb;
Dbl 0x19f634ab0dd9f8d8a56cfd29e7feb8020f6a9f9f5541d2dbdd9acb7d5c4b9f88e3d181e4c465e72167b78e4ba6fffb861b1b2450387f502f7401dab4598bd2a9ca3 0x17cd41259f27e381f83631c070153023fa83c9698bbc2d6dd2cd3124af75ce07d974e49496876271d7d51df70816a5f814f2e27e720e23413b576b026e5736fa9e0 0x6f6e5df506a8283dce5330ffdefbc7a682dce01ed3e7df79661b4fabc3b1af9ca9a49ff4b0dc99ac8c4e69c32464ace6130e3434093472a8e4bc309412c9dfb131 0x2ec68f23db92dacd4dec2175023ffc82fe422722ec5589de7fe3026ed59ba6af8fcda28a5d79b319f655e0bb9499877ecec782d0e1b7d0e98c3e8d9ca76fb14d62 0x0 (-0x3723d4f6eae3cb42eb7c27d0066947b48dba3e3f5ce6c01802024c0f8dd9a55cac30d1a5dc604919ad61c9e739816165ed9306ff885d0c40e704cedefe6f10e0ed9) 0x1510189562490b84fdbc433ea236b05d1f82f49ca2c0d83dd46ca386bb97cd5c0f5de72887c14f2cc4cdb3b2abeeffc18a0b12c03002e4d23348a97dc0ec65e889b 0x25f3033d191928af2b3e37db3abb6ec121e184ad57c83379898cbde1b50b26edc8bf03173691c006145d37439bfabfb8751950643f53c33033c0fba8573ab89326;
Dbl 0x1abc329af1763615563876ef09d6515861cd57144f0b2e0bfce66da51c52c17d1da0436e2685c78ef6c0805854e2352199c52ae97b900ab487805e8eca653c351d1 0x1d5f40a0f02b5ac20c9458afc780f312e9903c7389ecb5b47a9b85fa9e8f269cb337b8f4f6e8c2a465a9c9152c41f5d4723e46b33cb95e50b81b38e8b9069be00ac 0x8e3503aa73413c42fc981bba93103b69c540ed2a81e5b45635062dc3aa57354f17965cf65738e3bceb58d2b99dbd29a67b1430cd504d4a77848fac1245486bde7f 0x1a6e0084aefc88bfeba1d910a8943d1110f38cf601cf77b95831ab2a10e6a76b263d2b9f9f9e9fcd722b54e1dbd4b023a2b49bcb3554c4f0833c3219b5509b1a933 0x1 (-0x297975f4ffdde79ca95dc936218f77ea6f28bf8b5d13393b499e6fd431205b544ede9578293353af6e4c62976719a96e7c12a21b0d04d918d043b629b6ae119c805) 0x1656250eb4fc65aabf9a56d8d74a06fe2555724173f01645126ff23c47b6b448c1559b6f531482712bfca912e91b1c0e322f3fbf4d360746545508f2a3c0c1167cb 0x1614d07ab35120e87b637e9eddc8ebeaa708962443b327bb7012ee2700a7d3ccdefd19f9f8e22df5fae930f0ab05565a8c56041c4a6b2c07e2810f5369886de4a0d;
Dbl 0x1069e8e9c2626cea0e16eec14eb329a5f17012b31e3518ac7e03e2ee33ccdcae44584f02e08cebeecf9009b85ef617968632c5b8d70df763794c91c55f50a336f5b 0xe5a81286a6d64d3185e82c7e7d429af87007c068dd0db7f48b03311c98360fdf80b9047fc044463c8d8264f7ff0ea4f3c4e1485e3636c0850a48e3c3a9bd47f93 0x137dcfc7192ced85f267999170f1b15ad2227764de20a51c0ac96db5ced9fc99e2c2aeac3b0e2dec0b50d8eee9a08c607d57c54b93f58a5e905e1d75c7eef97408e 0x1c79988e69848474db0e70834903b077f12034b3210fa7fc861082c981f6f08cd3b6fff077287e5e291c46b03442e72f7e79656ade8327903310f004f55cde98119 0x0 (-0x47c31ca8c68b7e5359958ef43edfd01007c78abc8937748034989f9938ac9fdce87bb3126c36c43386014c592a5f37dfe37929dd007d41acf443085b64b544af59d) 0x86b4770dfb241034f71d94c4e4e5ffe4ad4519eb620c287a748d122a81586644237af4deecce5893920995dd754090b1e095320c9bc384a0ac1af5b224c49e7692 0xe9b0a855c6c892b5695ffcf043b7ba09a145712e549c4e14d045e5c1e77c1494e63448d2daa4336dac607fc81af03bcb6089c426c7af3ab09879cc087f150d642a;
Dbl 0x86549d56e719a2a339343b2f72922468f93e2c5f4796bfef68149110e0d5c5b09e6682e810b3b5421552f4f45979709b00e55a6219a22d89c081eff86fc8798279 0x18c4bfffdbead5fad3bfd6eee9fc57a09d0617a16b820ae9103fe5a47af97fbdb12ba941fa43663525b3e45f2e50f48c2d6ff67c35d3f0247b18a4d6b672986daf8 0xc90ff3da3c08edcc091d972c0a531d35dd4f9d0131be7db90166306dadbf29705f6ea30adb68064245ceed18245f0b8f0bee10cab9236013447c2cd6fce8839b07 0x820e812aabc00525dc6113d9480eafa5b69f01efd5b02cee44b1d8ca19eb6522e550fc2857cde1116d99e05c9ae1a18c654eacc2862469c09f1a40d0d3724da49a 0x1 0xa26fb72370ddb4704d8bfd28b0924243d48e72ab1de6f4e148eda9e37971ce1b98cac51509c014ba0b376d8b248437e7a16517bf5eb8b5becceccee421a65a4cfc 0x233e58574dd51a05912a7c125f9a47f49a72db179d120e1c3aa25ff899391386041ac8447b5ecfaf9cd5a0e89e1ea7668062066617c58b933860543964b84ebced 0x221f4a26e1b2c4fb17cf901244b5c060d1f6f24bb300a49502b4e0f21deabb71eb40f68217f759d57ed93e9033590397531e48c5d7e1b703a21932e16e4707dacb;
Dbl 0x800e8fd3f1693bd2ffd190b60fb00d6e580179abbc3112ae20dc793d56233ee04874a7c221a57d007f4e7969bde83c2f9c96e3e18cc6d4fb7eea44c703f4e9aaa5 0x11bf0529d16130418ea306f6f22c6ceca92f801104f2d8b8d094254627ed4a785a81d1c9b70a881d7703d143282404673dae3362d2a01d9a152d00804524043c91d 0x1d0225ee26a4cd4f8890ba63111fe7f302f156a5ea63bb333a0126b0ebab8b1481979908f8f76387f9bcb08d922ae11ae49b402cacceaa0860bfa1e73fd6d8f9fa8 0x705bad60a89a5b9451ccff7f7cfeab3f3d69790668f32303fabc05e530c354556a9d7784338de17aeb0131c062cf024efc1c3196333d28a65eba456714e94311db 0x0 (-0x333a5680ab3ef138d6779c324c5de8537f3b73f90a891995f79ea4d3717e7e700eeed5cbef0dbe83a06d9d4e2ee3b4c52578c7a0834658d9b01784db3d9d9873249) 0x20074853feb30d40796d98928eb98943932aadc2dd73cf4fc7a275304e4d6c074208ee74d0ab1b9bcf20ea130e7f521b2a3a2075fdc766395ea9e612aff937f0b4 0x1c1a1d6a0579e4941999c8d103153ebac8dacc02f9b23ac991f757bfd80fd92688d7b01573b7184550e8df8f45ac195384f6b24fa290f989a6c5e949f877aa4a88;
Dbl 0xcd96cbf32da0acd25e959ce6965355dd3617c18a0f9b6ecc5eb9252518b50eb112d19c4d47cd65790e20c5de45b0149b144f9a6e41ffb2b5038c27db23a9673953 0xf024bf88d53a2655993c260b9914bb8c4dd91efb7bb9cef2bc5935e6e2ad11681e04e130893220ff7ca2d6cf897010805ff8295455aa280fffe070a145e4ffac9b 0x529655b8c3b43029e1ae0aa78eed5f94c61e59bac0a7cb0f839624ac18672be103c91b8f40cdb22a56fa08a7bac3acbfdadfcd0b6e90bab4cf1ff2439ccc9c279a 0x2bcb931440d8ddc350f4496389b2133e451ee214d373bc9a4ce91e7b9c27961d8a183b6ae77660d7f39a3d62f8d035f37aeb0cd8d457b19152ef97630c5b441c82 0x0 (-0x63a6e8806b9fe59b4fb70a6d4084d82d1e68b223f331701a108aa649f48c9b11a31b17b8473ba5261433d30c79af52dbd6deb26c6e16a659b0a2a3d42d1fe4af18) 0x528d6dbb8d442f37f5a107cc395cb0be0048fa6facb7dc626c7fa02b083b098848fc2b1afc4a4971c0f59ed35703f02ba0166cd87f2b380fbee2cf87e9a1e72dec 0x1195e879b6bbccfa0f035844d259f96c930298444b24b1bf5064952b220b800a97137026197effdb3fed32da700d60427ef9bb5883a452cc1186340f472e6f971c;
Dbl 0x16a04c7697e12a6c8e591c5d8c77476afa62cd6a25c9a09585b9a3f36f1d2d9f4a10b8ed65a583a856ffb4ba6b7f548939d13179141f13b311d9b4adc14fbff28d7 0x8670da1ac7de1a0f566f6049267101b13253240d523c5227e1c67b9ec8e12467bc16442a63917e57262525d8caf37d121197ca8dfdabf93bbd2172a8aa81a7b4c3 0xc7561c207037c7469fe539f2aa7a1abed1482022cd5efbb12d42922ebcf7ff687fa36f240277288d74d4cbc52a585ca3c4ca55c626eabc48de8d0c56be53e7dcdd 0x69b3e56e0d5c0c4642ccc5c272a3b9db1b85faee297d7ccada92ba4819cbed0061ee9d0625a0a2a8567db0f6be7c936e4e605ec657fe2ed442befdf89b6357f7d8 0x0 (-0xdd1d42b4fbca0cea5f6e8d9b1f71417203d02adf748e06188f6a7b5a88b8b54ecfd1d92e0a0baf3dc6cfa17c5dd65d21474055c9771cd60d59eef4010d1ff6b324) 0xfff8c2069796eedf841b79aaec75edec7546c334df75b66046fe07cb7afe2946ee0f4e507168c0df13a0fe126976d981531a18b75b37410f3805e9a9364ed12968 0x4abd2dc9cd6621e0bd229bc7c4c428263c44b879cf9b6a84ed1409467682f687c4042ec933efbaa2ed89bad7b38d78185207dd93dd237bae93d15e56d44ac11e0f;
Dbl 0x1c3a95e324cea7a911cd8581fe9950d7937b70ed15d7307b078d0cf77ec133bfebe5628a24b132361f38e70ec083255e9e196d4ded316f173f8dd1e893e1d3edc97 0x17777d747971932418fc1c1982d60428399c6701879591e52f03b11ead69801a39333c80c2c53d2590e53e343871d900fa3999560bf8bd025896db672c63a46caef 0x8d1603620e0ae71c5a3ec0a913e15b6c6f119f316acae65c550422ac16ab6d27bd3cc654abf4f69ae01260ba581142b875b5afe599059eb5c5a4f615a05b4fa0ec 0x10ef902d330c4e7cdc6ad9eb0f910bf2d988cb3f4d8e333d4f18b69b3f24922c428e27c1e373dabfe17d1429543d5ed026dfe352d3e20291633b3bc35e44760e9d3 0x1 0xf5c913a1186a5db23dcf9996760b2fbe49136b54cd3891ea4035cf7e6d5b9d519e028f5bbdb678138db4eab3a02d2a6e73495d231b14e76a709e9f38ef07f800e2 0x18e6f18f95e0a59e7b9f86ec6b2bba0ecc4e951c643de2625051c524969c52a6bba0e07fda733a605a75eb94687d19a66f1916da652c4d8a07bd153ff8d705e5364 0xef09fb08ccb626d9f5efafd7316138c2587ef009689dd5751feb45c71b627c21bc4a7f8be61fb4ec6ff87af6d50e7d6e3eb1139643d9ce11e4d1faa551c4023e54;
Dbl 0x8518d4a5bea32135d38ea154c205d847e2b0301a684ccc85d67451e060374af750423f597afa5b98f9a120671a41179afaf9760f1e2d26c8eb9c046b1f2464c02e 0x11a9ed96c86f7974f3aab5d9fec1a96fcd26b6c9c506a9d82d0f4665c460e84d1364da6f4677315c7d8e69f4711816427f037c788724c8787387d5f8e474538e761 0x1ccd8a442be862c8ffe395787ded5e54a0618459af75b3e40eb1e2278e10970dfccae69a50294aed520f7ce5bec02e60ac67d08b6d8f4f08b6becff7179a66d7ac 0x5cd8fddb10219af2551663f84145ab86c75b037c28ee80d01f46ab8e90897cd25ce62117c4e0bc91356d43fc759c2be7b361cdd84d3f489e50f056e47ef50de38e 0x0 (-0x2f0ae5a308bdad2f783216ae1017e24fd8068a33ebe715088e97be8b02ec51324da45174bce2ac4714d4bb999f750a3dbb93bf4247d3aef83dbc8ff8384a3a9b370) 0x229967ae63e61712d19530b33bb86bb32c182212c5edfe653ee9876709acfc4c06b4fc64c4c191916b5ee5940008ac6d7cf7caeb04731824433922f6fc159174fb 0x1822dead35921b68aedd5f503ee7dbdd41273ee69708377adc11d1bfad65b9ff8ece91e22aac16bd6b89c9eacbfa963889b5ea42819fc8a3945bb9307ea7151514;
Dbl 0x65c960bbc02a7b2d39e4e8a076849e4d54656fbab9cb1f862a31f1c1a09fbd06333b4fa43f4abcad7553132c93698568cdb4c0361ce4e657697a0e5f97748814ce 0x1333a7acdc9a7928e04f93da968d44893b9d4c41cbf504fec3615043ead7be6499e2913a55d39cb2ae3f4d7b6c6f7ba4ca389489935989e4a0a3480d58caa4bec3 0x57c71435351414083b96f43a65a6dae43f3af6ed35741b88ab77d2934d2940d262ddd6cba0c2dc16fc7386a0a6284ae0e6a6d0b17937426bdcc865844f48219a09 0x1076b31bfaa5d1e265a5bc9c5558d527396ce205a847598840d9316185b36c66c9c6b15ba119f79152aa751cba511e88325ff32fedef2fda297da1780ee7a94289e 0x0 (-0x1c88fc68da58034b719b0cf33268dc23708ebf5e64dee43c0ec09cb7dda5d2745c2bc8afd01e9409baa844655cfe94c30b31e241b2bffb8a95e5ba1a83295456090) 0x143c425e988150dca3b2942954aae7134e04aea1ed4141a1171f62d50717859cc386572cfe2cfba8ae8f1871c3720e828e31eb4c769757a947527a1fb28885b7c1 0x345e40aa08b269458f4fcc762b7e6a97737b591d8c6289834e146e99d315c064cf6d987f7ceaa651f6f148b11f2ca771f5b2cb8bd357950804d6e2419d80336a91;
Dbl 0xd94b4210278d950e233a9fb06dffca05b3de79cb0c10bee2d957231742df952da00d773a7c2a54d726d461f860af2ba8ac6aba7fe030892e31a86675cf8533aac8 0xc34cc3f05794732ec92d5894f2bb30ed5abd651f19ba2c39ccfb26d52f8d1dad9c6a2f900f2a351a0365a54b87f6ecbd5eb4265c4f825fa293394d510624891f36 0x1644949379f03a9a91672065b99f34e1c5fcab52531123cb82fbd74ecefce16a6a644d28a5d7518ba0c0a92cdf03995d1094ce76352d52329c88c03ccdc9bfec4ff 0x14fe6e3bc850605fa17223b45a3d2139be0dfe722b23ad8c4f666296ebb4aa0b6fd7861aa46a96798aad9a82fe4788ee76b846e2d43d72a420d69fabc52a61b9f8c 0x1 0x48587e230aa0b498b476b09f4a7db735013086ee20c308c41abf30e2e49eb41d67867083592046f115ddf3abb0c9ba2b9dbcc8c88e0f59d491ef010db60d4f7788 0x5c38560f94c8c488a356325c924f9414bab6e405ebf33a4ac2857f69d04b045435de34f3709546acf1d2333694b86f14605a6bdf2c65d2ddf7ff85b2666c34607c 0x8e8ebb2f1f03ee2cd925bf670e168f9c1f3c0a5b391b9c613b0b9c8b56fff05e7e42070fed9223024ec5fe806a4ce50c2217c9828acf28a3bf30aadeb341b4c1a8;
Dbl 0x17b22827e27426bf9e0ea66ee8e03d7dd8cb9c9374767524ed45ccb0decac1d33a6b452b49541865e1abe94ebf092401b7966d84e7f89dda9d37134f2a3f1e61c39 0x6c88a94f055e3e844a5c8ab2d255550c91e285da4285203855a0fb51a9e14c0321260ee1d529a83fa6bbd917775abbf64cf39bdb10fed827feb3ee676376229445 0x13ccd791d4e5425099bc19ae28d5856207eaf4ace63e4302fc23786be8fff4a93f9a189aa9bc1a0b0758ec0a26aeec26e5893632bfb5132eb84e2c20af1885e1b36 0x56c41aa1523634aa7ed0cde22065dbe0c8dadf44d7350c01775a2b8385abd1aa7b4420ae3a008cda5ca9cc34109c30c711c08a813e83877a94855ee9a2ae668af1 0x0 0x1302b7876408d2817830f842a6f92bc2d54817824f5d8d75129231f4ddb024b3c650be83fe36efa6c8e7da473b7421a44f5a9466d5af16174e7da89047b880edc9b 0x118bf99843a22bbb257b395c9920777b2053b09b837345c08f612610f84298e91ff01a5283c223042b386272b394be5890ef489acd58075dc74606a44dfb3ac4e00 0x404002d95abe4ac3bf8425479ce3f9375f3579954c5cfb2d8ad5700ae43c77131e60d059b72eeb8661dbe0975980d01f6f425e0c2dd529852fb828852162cf948c;
Dbl 0x127887b05a33057dfdbf0eff0868448351fa74696a650c4e63aa97a67bdf045b58b1300de159c8b9af9466923906b5c9c54d4659b5fb56c259ecfe914384c937fb4 0xaea2eb8fc012254f0978508fa279f2187cd9f8869586b85bc4e6a19633eb3be7d179c2e1982121a50483e65cfaab7d5b23e5df9129588059d044edf8be84357b3f 0xfe1fdd53c6a8ce296fdba0dcde44bc4ea3b8fe1a6187d1a0137ca017c24159e5ef7246b0614085bad55294a8e42997c68d95b4c2682c78669fb1a6704e2797d3fa 0x1bde5bdbf454c193540e43a232fdb62f415088d53acfe67dc90ba59bb75f6101b4fac4c003d08869aa237f2ba7caf3e9b290dbc49e7a657ce2e6f006ea4f1ed1905 0x1 0x128b448404f49b36ebf8a1c8e3365b63896fac81c25d250b9d92319bf866c9263ca75864713ac8a7b7cb2d9c3285e15cccc2049bf2fbf7484a928cc6d5b8941b7d8 0xaa95ea24f79a9c69c38d0f0dc3dfc1623c9fc41bbac35a5c6c95a991f5475dbe524159e5bbd387b5e660f3027304e5e5561ec15a21096a3a417bbedff6a80e8d39 0x10160bafdb52e4c3a83ad3dc914687ffd6fd25f6d43c691ea62ba97474ecff428c8fb9355719a3b8529858c74696ded3827384e3754ba7c493c8e4eaf961bf7dcac;
Dbl 0x18f79e8368def78a218440cfad6164ae8d28eb1b9c5e664d80492a78e74cd6ba2f1b15757df8e91b912a919ae4dae5daced8138e74f4f52f7a9e6fe45923b4f8efa 0x10495bf91f44f1a6ea0adf74074775f38c527f02177823b5d8dfbc5b18338aed2a5e3b5a94158d1c97c01720a0ad622c7d44d50d98948d262b54f0e025fa2302041 0x1cfc22eff26bdcdf45a4663139381057b1a25fbca4bd50e44d144fa528275e54993dc99e546ebd66975077000491e00bac9a75b296b6c27631df9cd82998e2d6ab2 0x1aa0d2bfdcbc30ae068ca594f2e0292dfb7b208651e047cfe36eadbe4b0b28d152b960d3856c84fdb88827452efd55a934f988eb7a00fadf71af5dff65ee2055afd 0x1 0xd9d9ddaea1be63ab5a5434f06bfab50f02cf16a8b5111acf5bd43bbe09c09ace14812a0007dbf85560bb18dc99ff6aa3fab5863f6a8d1f0637959d9637de437038 0x137ae9df3b252c9a5c59eb60663784f972d3313cb56ff609c73a4fd887efb76b73d7a275ffc7e217b89212b402802cba4b11fdf8d435d1115f851425613e074ca9b 0x14c6ab5208b33b0d03873c348641f0b4849c0867ddd328b44fed28f7a46ed5c2b109dc5257bdd34f65b19c35df23613ca3bbc8ee86570fab505811ba7f6a0ff0d9a;
Dbl 0xe117ec1346710b3c84a3eeb1ce98898f6e5fc281f34a8ab504b519eee6426c7dacce50962b131b3ded1d213caa1c882476fbce1c5df3ce96cfd9b08e28372ea63a 0x1c6fbcb06c48eeee4e4a2479b22a6b3f2c451503afabb66cd7eb53b8858f9ed8925c6c025915b3c7eeecb70fe5c64bf111a76e8c23501aed4223519394e7f6b9b0b 0x1b1e838b3f2e9793ae0994ea31c47d7c8d022ef41af1fa7183a88f9176e1e0ef24cb19efc72a773262710a1e7541e2b80ee1895fb6877671ddc29f2ff47198bb516 0x13d99f48b2fc02b89bc0bafa551d0ab4600d69fe67cc6d4900f468a292a3ec149801cf583affd954a8d36010bae7163b6b9d668175447238e9319f4c91122c48535 0x1 0x9e43a54dd0e9c54543e20a0f11b1776f11ca9fbb62cff8c7da701105599e1b43c077271d6b7e0646f113f136838cba17102a1acd9892eb19c9a2df492fa65c0d8 0x62f5879b137e74b22d74a151b2fec2bd9f0bbc03ac18a838bb71bdc3faf9c29ee793543c41dd4a9ffef14a7854b0b4f315b73bd00615f53644e493e000af049669 0x8ba0fed2925d7f52aed886d42b034e67ce742b81acc98596037af3c47742087025889e06105941233335081ff6ab9fd9c111e23f6a236863cbc655293d064c93c6;
Dbl 0x16e88a88f1e450ab94136e0a7a781ecbd994ad3ca26a27b4aa608b971da36d8864aa54590ff3ae45e2862b0273ad34236f2e720edfb74bd0753e43135b340192 0x19f8b8f51e0c91fa6d8cfecc6f94ce28d029ba195fc3cacda0dcd989df35e548e220e6d1cee02a16cc216e09f8b554f85dbe15b72b9938fa0e239f73a5667d26eac 0xdd12ccf29a91ba87c811da7502781a80766e94a20beabf2c9d472fb203c1e2d62a2d1e47946ea54f2a3f5ec772f2ef952676514d33fe83b78179f455b2c1a33bd9 0x27703bb4e3c5cf3e0bd25ad42959d165c1b5aea4fe7eb9f370e7a2ea659b98fb03b85308a3589b122cb4905ed10f6f8b3e958d4f7b6e1f333ffb21fef817992c5f 0x0 (-0x4bccc3d8b80085359b7492869f2371d2f8bb0a36c2c40a64fa07993945c43df5c02d6ea211298a606b854220d0982abefbd73ec7a9553713baecbd5dec3c66bc1b0) 0x10665857660ccdde1470bcb2f956ec2c2ab60cf6fc11698d5a7affe09636dfea952d426cbd4fd758a6adaf147906e82e174bc0e7256128a690198f7572d7e 0x1c3bc17a04a3d46608259ed81eac0d006273d2a08c7c62f6ec9f15caad6bbefee43668d697c99386bde609c4f55ba18a85b3b2a302bcd344cbf8d75045b43c1;
Dbl 0x1d29365233cc4bb751887c572fb093aa5f20803a5d105631eb4eec2223a1b2966ef1b2b17bd24c8c6629348e4addbd012fc403a3d67531006e1ff4dab2d438386c8 0x138719eda3c1f02406f66e9c51167673f8d24bd8f9ffb45acfc480102231420d76a20b22a2f64e2a2495e0ecae945f8df55baa56999adb64049e7bbf4a8d2249935 0x1646e05507b14613e5c05fe6ea4e85bd28920d682e4daea8f313e3505c0396f9c18f97a730e5897ed7e0d4ae93896c3b0092b82612a54c1db4e56f88274d07c2fdf 0x6719f077a4aa1d6669690301e7e57b4d7576e4065c41672d1185979bd04a33b6b7edbaf2be9dbeca78b8d1d4a20f56a68626b6091fe5d96098523b45ad95add577 0x0 (-0x260dd27ec795813d4851609e27f5e08050b76f2ab81e1f3bbd66d1583cf6682dc29fd557ab9ec8c5221b6c06be82479554eaa473c3f73e5cb8dc909afe9c9b1e463) 0x1a92e7888cbd46b993ef57698d57c0cbeb99684ab276248a77fa00345f8b6335d66284c3ade91ecc48fa83c5af9435f1f884011f8f6dc2112aa533fbae5ba237a4d 0x5df44a2d25aacd9e98103a9a2eaa59523e75922bfde448ce64075de30f95db8699003a3471d0a383a28e75ca1b3ae8d757a60694a836ed02334b35727443af5cc0;
Dbl 0x1858b14c15e3a7d16442ee8f03f4f26ba5616070910e5f6c8eb9d9334202089f7a90fdc6374909585950286cbdea8a31a3af37bc574ca1704deeb145c74f7d3376d 0x21cbc72e9e60f7c4366f478d9b2a604fb866a7f2a156925281efd505fe9cfec7b78f49dbdcf4694014cfdd909ef3825b8258a99a0f9cc76debb5f5385146d39a88 0x17dd62addf5b9ddacb3b77f5ba9485890e0780c73e416bbcf57c667f078688df0ccb01480c73a66b233778bd5f1c700e94a74d5cd73c8bce1435bf75682d9c31e98 0x116a5d7ab9dbe0a7c38f7a237763d06efd4be159cfea4b35a7a582bfc2477220fb291684e52707962348e313a4a527683d361fbcf8a10eed25e31c6bc578b50fead 0x0 (-0x1da2e5bc5a633b843e24c32ebfa4fc1145c26acda5a81a63c53dee9b8f752d357b718d15f15650d8fb1381a1b45fed9555d1a2ea1b879e8af1384bb9caee2366fe) 0x1285ffc519a046e38ede7d9273eda1450e0362dbd96421840a6d5f12b297a55feeb1be506fbef8db82c09074dabb4ebd0278c4e2f153fe59d1f673b4ba22b6ec889 0xd400b1ada7a8fddf2857652e8f9e3b091fcf21dc05d2c12e32f544a9ec1407597f4265ec0885b87a1e61f33658246a2367d4a79faccdb98f602a8a4ce41e74b3ce;
Dbl 0x1831550ae412ed6e50f9ccd9f009b3aab98c63e61303637dc753d32aa18b06ad48842c7819cf167b257eabacc20c6fd084544f10ee6ad60ef1f53131833bd5ec07b 0x96d2731f41d1091a6dfe41bd4563355fa68cab6b445a741d25a7b344939505580c2648a59a2ad78517f67c3f7164fc4c706ac5ae1344f0e094173ab94cd4820fa0 0x1dacc0960d696f0aeab1fd62dbcbc5b7dc3f648cc7c9050ddad675a8e31f88e60478e9207bcf84fa4bcf3ac57b5e3b526a565fa978b80070b032550a62286e4f90d 0x18af9540f5c8feea9c87105d055c72af011d9fc875cfc1e355c4821c16b07f96fab69013642c991bafcd961512d8e860f11ede3ebfc57d68d579eba7f0472518ae7 0x1 0x23aa94c5e9f405754bb8f0586e3229e0e09cd56f83510aeb6845cdd6d924948e798b23a9724b7b0edce862ff4d916b5c7021927523ebc76956b2124f506956452ad 0x124a4b9da978bd760e0ae601ef91ca89a0138f8892f1fe294d1b936b1f607e6ce043f0b4475f2faa9b95d28431b9babead5c3ad9ebaf52429ca6af65da5d91c8997 0x12a9be680f13ed7d4fc8029641879945afc7b89d853b000335d47a47fc834eaa654af3c1e806415a0bb223dc44fc4523bfee4708c2270ae3436d2f81e42bf7b1aa8;
Dbl 0x1aed5aa2074cadd69c1fd20e24ad7defca70643ccf98dad43813712019e7b8480d4c33420e254975683003df7d6683b9d7eb0f5915885516e27198e0acbeb07b895 0xeaa65fdfcdebcceea3705484e5e67fd032551f4a8e3e2852516e7e797ae1668e1cdc038772b996b1796f6037646798ba3c6d74b1e2a4689d58ddd7a0733f0741e6 0x1a87e00686f88caade23f61acbd3a1fb8eebb594d0eb9ea28ed99630ac3521ce597063f818bade7d232d9d6af7100d3d90c25030e6abbe1fd2433a1c053acfc4123 0x1ac2c133f73e53c2bca8ded385f7cb58f74378c20b61c4bcad43934cb18b39ec9ef4a451e277140d39e871c080cfd639233fd50fc30a088433b396318d9957acdb9 0x1 0x299c60d2d9817328330b31e7b6534a5d382e9cea8fb2b3739734d78c282724b32389a3c71da56ba69e251a43041f1a8ebc63343c84eae4a8a2d86dfd262f519d2db 0x16a893cecc9b57c4f47ddb997ce92e717fa01ae54d7c8ca8e10e459d259317fcb5ad00fa73ef0c509febe0d47b72cd494632d0a07e3807145b1fc8f85a1bcceda6d 0x1684bb2c6130c24c21a810ee89e38dab7ecc9ac6fe825da040e52b707fd4ca03d63b7a87d9c09e7bbb1688d345bb93bba3e6db36d87807fda25cc355f7a7c7b8583;
Dbl 0x91fbfdfb9881477c21a4c458d9f5f0e5b4ba24880e216f5577a23bb4d02ab3d07412af75280899bd2e167346c34de369e27a9c8a9198dea1df28b4ca08ffc74aee 0xe0543b69a862685a03555077aaa6c0a8b959039f352a95ac2cdb1b7f432f0b3d5901d2a8f0bad34df36013f2ba7aae1124882a2421d189500587daa931dbbc43b6 0x280d0b0d8ae90e675d25ce40cef290a27e126d517b1f5105381117a9fc130e01ecd1e56d52068741ab8c434c7637d9fd85691c1f18930fa171bb104059ec48d2af 0xa52247625896494a01b040d3b3fbf2778fc1bab591392a6249362fa37b25b50c3da30de81fec363860f4c44a9eceaa917e54a8dc0d2df4d5355fcf741634afe30 0x0 (-0x508da62d29825d976a6219493189193eefbf84e065dc46e096f2117e5cc679b02311e62bd51330c224eaa074bd3be284764ba29d10f02d91cafc36ede0da7b892b) 0x299fb6e1850d61985d96f6cdecac2823c27563d0225279fc57d5194f54be5976123385adcdcf07f70cf2df754c2957ffee2d8f7b74b0167870069700cca1d8523e 0x2f157b6fee90f44d8cc774835f21923e7cfd0402be975689951c2f93847497aa2486e6a85819cb92d95abcab548bb52cab89b282ea6405bac07a5873234c2e332;
Dbl 0x1fa3c5d29ea6f43e1e550a40cd4e0e9e2bfdbdc19f5ab2c0fb0114f55d54a50a101ef9faf86623099385a18676983ee3e8d9c927c8a3436d8071b7f2d0dd595c500 0x1e145e9325b97b8c9b57ca940d8a918f320b0b6f7d1757b001016ab4838922f8fa9e74d6892f859df2aee3d2c3151d5b1d604c4f43d907aa44a93d61c073ca98249 0x9a6eb25e34e0a1bf9242947eb68a5706839377f4464dca0ffec7ce019a9b05f5382ccbf668b1e674033929db79060e2db1c34532048fc0eb89db18d7bf37316056 0xff0e52374ccaaf904dd8a736d1fda7b598a84ca763b51aac1cc470370a9cdbadaf1a85405dc2796ec871d6c68928d85f4e83652fe4410eabbaf4048d2a9f12c16c 0x1 (-0xd7aa0c0d432da785ddc09d6ce4d6e41d8b240dbbc8cbcabe601c1d428a6c90f4346018fa09abf4dca5a13b40556f3ab2b25bf5966355f0716605ddf2dfce4d05d7) 0x1f4895742c0269bd94b05dede48d788fe37047b56156997d58720f4919650d11a410943c66d4361947eaa1c3f14537b6ed1443e036d06371e5822e0dafa0a8909b5 0xfc2f395744bce921a7d63b9a33c9d566ea867d157a2c3731f9484e207103e87cdf05cf1614159b384a39f94a84d1ef4a3bd133b63eb65be750bcd64c5a44c61705;
Dbl 0xebf044acabf8734c881d342333f93e3809a3052d76c2371f3fd2e23519e40a39ccefbd814627a5bbd5cf6c1f6d769a045c7b59b2d1a3481da66c6dcd5fb492292 0x4427ebcd24437e9e6621af8de713ad271dc168a8fda2075162944a76da0bff84c797cd528272e431ed0862c67e5ea7dec58ed41be47b6448fb8b60dc2df6130e66 0xb97a97987c3f882833e4ef55c263b6aa2447ad42e6f804242147320eacb450efed923571173410d116b7e7cff44db4a4b45128a9febafa8850399007d74c7b3dc7 0x19d1dfd6537543a2b4f5af9b2f1956bcc02ef4e4ed3d373aead8260d15e86300ae24f8016108575ad3de5da65b2f32dd31075f0d85915165b4f08753fd9469673e3 0x0 (-0x54446652b145dadd4f1cd5d3abdd126ff3fb8f4845765d6fdc8fd35fb95049e7a960246eb7d03de05d498d7162d2c9ec7f2f948487c6ae6813f712055092ae40fa8) 0x6cb97fcaecf462ad1c032364523531f0967704f8981e81624a90b4adde36cec11e5fc41afddadb10c5b9b5d945de598205db4a2b5de415790f6e1e996776f7b4 0xbe5f21460ad3a537f2f18e17e1305c38649d11730c6524adc5854c456ded5ffc38a295cc086fddf326d502cd6bed6c131b54345877fcd0d5557cd75e6a9bf60a7;
Dbl 0x8b95a7c58314b1dc1b3712a50a76310b868e62ca1a9929423775fcde6a94e76fdd34346d9b293dd4965ce5741cbada23cf403c1a04bf10f147bbe87b5af99cea46 0x178a341dd2178b2c871634a724e4359328958b761e2bb316fa8960efc2bd69f903fa88fb367418524a2ef105aade1b517a4ad00daccf36bb0cc58241d2f43416440 0x57b236cc58708be977015a5da5d0a2a3c5644134585b456a100f387e9d7e48f2718c6987a70f7b3b9a7f5a005b2ebc04f253767dbc0ee348c029de72f83261324c 0xcb84a9f002cacbd5f4be651b98d053f49468b1471ae6d5e1b9fe3b7aae355ff487ef3d9f1b315f0d4a19526bd07cf2c720e1d3411787f8982f333cbefeb2d1aa25 0x1 0x49ea24fa16f7e81fa056c5385c8afb3c163e6bf79872bd446c9b17fee5aaf68c38bcac2542c4b0aea1a8b9edc2f7ecc0c2b0a9df03b46018a0307582fdfafc5d15 0x260dedd69b1b2c5208654a291a30a28856a0a67204908589e001725bcdfd8ec645343e04ba70399b2a12e2ff14d5707eb8a461016d8e524d134d2f3868a7b375e8 0x377c00ee652eb57986e2014d60a7071969d4086eddcaffa8ea882478aead2c55fa802d9610b0c8e17cf2a2eb431ab814c805d5701d2dfc0084e81cf373487617f5;
Dbl 0x5a964c3373597754d638b92a594cfa3476564388e040deb9f63825bf40a99b00c1fe3e46e8877ffb01b24475bace566ebf8506ac27aaca8ea4a59286401ebbac2e 0x432570f42e71c3f3dab6e0f2a2ea78e6bbc10a18f0e26f080597492fe68fe11b61b611a35d43da55be5cc3d26a97a5ed6931c3c54e8cef282fb2308971ed0d691f 0x14117917e066dc5143ec759b7a24a0406d953132cf36ff2c160b1f089e45cd18501cbe43361c723d4561e6e383a8ce0e80b3756d05e0f635ba830048b23d0630da9 0x1357dd0e8f306eed496ac697fab58e04bcd97ad48f1d8c267a2fec5cc4546be74ddf27e1009fdaacee4924c88434a0f2a3b7b3d157e667c889ca5f393bd5633fb21 0x0 (-0x32027d297492f25c704223ae8e022dcb12af0ea13ad7d75ad1005f9786c052479c22bd3614d2e04b8cbd36760fa5a996e9d8c1d33f24ea055560d9a1ca552460353) 0x100702e8c80a55c9e3422c121b04cb8d191c9881ae1dabbca301be14b99bd0091d7b2b726bacb2de6ac6b5cee926f32e68ff4e1ae0008ebc98d839fee0ac8e595b 0x36c1f7a4edbc2537bcad63a7f9247aeaabb68c5ee0a4fc71374999194d3dc11c201697435c3313c8e58168722f05398c43580ca3787ad5306b852f1e854997f407;
Dbl 0x46d0bea0980daebbcdc3adc47186b2e8a620d12a3542871d50206e53cb11aee01c6aa3e0402f9795cb941613ca722e8b8dc5a627775b72b817cb568fb64bbfb410 0x8ed95a6b2dd6f2dbb28f3dc658f05f9b27e42f100dbcbd5d3e8f47615cab136cae8ef4af44f0d9f9f1bfba65b83786b033ade7917a7b12def4abf17feb008c7a44 0xa50d72fbaf174df6c5679e614e536d132bec4f548264e90133668267b0fe8ec420767fee42d7f644a08f1639c4b4ed9e1015718699d0135eb623bb06a546bbc412 0x1b44c1689009ad1182827a32c49fa194b93dcdb08e325b1aac70801ce89e4cdaeb3271cf41853005bcc9d096cb2601f3d3583dc33d411dc493b063f0986ec80eeda 0x1 0x3e6756211a7b8bdb58500e76ec03b8aab1508cf3cc9f2aca5c3809f545c2ade0d05805c91ea9f8de3577c0d449286bef1ec7981a8e4aa643e0e106787efb2bf820 0x9cb693b1308ac1eb03f68b5d94306407e8b1f38c69324956bf0f83b2b280c35299fedb31d19a4623c91a3312b12f78952e5bccfa2ac1dbda5bf6ac8ff4c20cb82 0x3c58486ef8738b0a06b9842ff6163ff2a70a29559b21a384354795780215b8c436c91ba5ef0e30e0438a350b5c4f4e8446fc7ac96651ff8b21b5d64be794789c1b;
Dbl 0x12a76164d007a488436714541b6e6f64b0a9a04e62df8c80e93189e1437bb809a49ce034737860e2a971a3ad302c4fddb7651d712efb5555255a122533b62e6969b 0x499f50f4422d0093049ccb278d4937e0dabfcc5ab679ea21b778c5a0b685eca1746f6d822b4ebcd973736ff52a138783fb286fc763cbefe110d256b6072de9b28f 0x1fdc3cdac7ed4e0074a2dfd10897a97cd35c9f71df41e6250a8a70593d29f5a7634a0b5c181fc7da6f573da631e851115d49793a90581cc1ed4566947d729f8a798 0x453a0976eba9f248adf2729ecba727ba4d2462b55742d33b871681c0a62526cb3a1f872d19a21d207e4c4a708e23ff2c388577ca16af22fde3d99ac9e3d2a2c7b5 0x0 0x48dd0526ce535403c7c512a201d84c26e605e7181f9ec54b93a441efbe6421d961abb4cbf007bf5a697ad1548542e86e710ffbdde130d5b11b4de216f414d22061 0xadfb9131eb053a667b543c7b207fe713b28e0d3d3c6fe4717f2e97c6c8d5d2829f5a5d6aabbb02ce2846ca1219d8a28bb8bb56a8c142507174f0e66d698be4a53e 0x285abee64d454b542d7403f5a4b1f0e72a6e9dc3d523d915b7908e1f47ccbe7a93e9eb2181f40016e3fee30b331f8911d3ac80f2b4a8f0799dc0814fb6d0837313;
Dbl 0x144c0a0ae6b1774c716716cb0b5bac681bab5b42e8ceb4c3701cb32f95d47c28ab321ff522aa4a491a06f9f78e903074611a57f658905ee069eee552977b8ec4cca 0x1de1aa8e425b50553a1295d868d4eb95e03555f15c4cd2f93f7f36a43c81ecd98f158ab8fb04d8873bde49a60d8004d0abd021a2f24d635c04caed480e002f799d8 0x8587d306d9edd78e48df6c25ab3c9bb158ed21398e62729b3d84235958f7813802ed0d0a9b9fc9da8c0f5220ad0c6e6fadc499e9fdf4e937112efce59878fcbf33 0x6b84a8101c77fb3f63736da0fffa7e82d76a6d44f1acba8dbf855b5cee671f088316c1f27b013465b58ed59452133a793e2655983ef5ba20c4238235272af218b6 0x1 0x266e90424d0a388d4e2e6b5fe2451b0753056854a5ca9cfa0cfb1714f7db3ca4cb8ecd78430e4bca0eba04e13e4883e4e5e5ef93320f7a52656034ecea30060c7c0 0xcdfc13d574c73fbd170c7edb9e75f1354adace1e3ae6eae37f06eb96db021284b45df614144b7a0aee2e849a0726e828918843d5773f25842a9b814ca253526f92 0x443265d74d25e67647846036850768937385c5d1ec1199ba1b5c47ab52159b4a1f7034e5e3fc39548c9614b541d2bc08dfa06b8c9a009b19948cfa603c48cfdf2f;
Dbl 0x1865e6a88a6142383dfc0e232a9244a663b75026984d446e0b7562fd290eb34eb7595feffbe51f2b1c4651fcc32f7ba108a3cb616596fe7c50dfa91a0e5617b888a 0x4bce00c72768d87702686d2a6e0d65e4af18ae6c6a883ce4e9e4118aec7d51821bd4e05998a98b212227f83d5a8c4e95c5a32364531fc48289a0bede1baa9a08ab 0xb69192a173f35d713fcb0b361fd6fb0524f08e85bc03d4fd950bb59f1a5f5da2907314df12c4f0cf331999f20642100b9409c31a00977e63aa8c8c0c984c0b4b11 0x1924ca81cfe4c2cdc9ec0f05c1f415379543cb0a95a44f2af0e0f58b8dba17c16d583cb3617a3fd529bbca2237d73fe74f75ef6cad1b6713dc30e15a2c4585d912d 0x0 (-0x46fbd2f4aa72ff6a5caefc6a644e014f194e9a0f0a8cf99a62d4466b116d6fa93d42d710293591d78b008d21643c1053cda77f0f6c1c911890874f70e4c8adaa03f) 0x129a1e7b5615a62bcb89289f34443c0eb38402b6675cfea7d01a0c67f4db3ba1f2e8b0bffa71e080bccaa12c8ac6b2b65d2fd97ece50516851ed3463fe29f1a51f7 0x132ba93d630b00be96e734600479a4dcecdfbfdd6795d36dfc56cf62fbadac5fa7e0f074f5077b27ab4de1aae9f3777d77543b870ba66d4fb1d58a8ff2f9fd8e002;
Dbl 0x13d374b209b3b7b7259f9fb783776325d7007393e7e9e133c39ddb0133280371161d908a34a75d672e0d4d432d35368a13cad36c502428ebf8c02f36f6d99d76a4a 0x9ceabd7c06aa745047b6e6116024a32dcd36f3262f3b9deed099fe0b86d26d22673203600f78489416b57a0fad122b12b670de0d3fb179a631d23357cbc11b2a0b 0x3a0d85b43418d4111afc332b6e55f9ac1c21fc350feb3a7834da88796995f2970d7eca837503b6a6183f82d6dabb804212cad81ada6eb7045f3f277e18cdc4cff1 0x1aee3434b20be6426bab187190de8c2b6e1e1bb463b4c9ef6194a137f65aae45fb4a2dcf98931428d0b727e2dad7a23830f324557136e4adc57ce8b864fe97ede9f 0x1 0xc08e2a1569b742c28bf6c09e0d3eb3c5e86675d10db1ace41839d9dc86bbc26368230f41bf50900c002ce414749cf88b07103ac30b3fcf0803d80abc98e4d5ecd4 0xc488fe000f40113222a65a67ad0590ad1091a854d7ce70869e66198e52ea09b1385b8e3fb468d53650a3c4ff2da85bda0e4f7f6a4bb9ba5762f72532aeede1ddfd 0x10af63dcd798b776700e13ab05cc79625569f1d4f79e7447b0b07917e39c074b93b8bb032f7fc74e49553dd48d2b3ea6e5f910430a83b26a94bc59ef99c146ceb0c;
Dbl 0x15798a64b957f3c781cb5fdf0710a31c2f70207bd14c53a9c6651f16832db88c6d5dbbab7e0843ed976521ced34d4f0c4570c0c0ff31af69d2ffbb31fd7195fa996 0x16e36a94145f9f2506d7da8e738e52770fa61fbb803c2f8fff65add8684088555cdef166de45299267972a07d22f1c3f8361ebd382dcf4fcf1b9b7b7da8ccec2c14 0x1d650f8baff41244129aa95304ebe17a78a0ada986235c19059b603c320754fdadf4d2a84617c7dfe4cf927547a616159c2541acac8bd54055650af6f099e6f7092 0x12eb4143ac0b081ffda393d2a273f7bbcd2d4f76e2b78a4eeda3f208502c9e7cc9942ecf22b25af6d9d42d9928a20671a805220d511e229d71636b7da22f42efdf6 0x1 (-0x425ba9636b4e7f411dcf630a1537b5ad7f65fd9a59c93df4b0f302bb2863c7965be51b01a77e119a12ae267ec867be219023c6fc1dee88f39e0038f312f2610b04) 0xe695345238314ba9ceec2aeac9a383758979f08bfcf2ce9221f45e11dfe03e3a30392d3e89be50abf096878262bff6270cae1555bcd053fb3727d92c6db5771c46 0xcb23e3546fda17e02dda5c1079249a57b5e9d0750f9ee499b05b940671ee9c8779affc8f59c28ca830fe273e3dc2cca43b6405fffc5b8159183b10c19d0eba0c5f;
Dbl 0xd20cb3fca234aed6df38d224cae0b0adf1b61c1f8408b155af015ab5c7f72e31da746f41ac4d512702ec42ee90ff34aa2babbb854e7813f3435b03e55ef66c79ba 0xbaaaaf9a3881e4bc6f070f848d42c890f387ea1779cbcf54541d91dcc714b1eaaa64111cb9bf497e75e349e9457255c5a0377777eb824cf4dc6a7316dd5dc62efb 0x1a7ba2213a238615d831bc83e716ed4dd28a00f4a022aed7af75b0d38e22adc38220d30feb7c5999722d960927b3f30cfcea44cca3f3c8f7ac5fd521f1d853096ce 0xb38bf9a70d780d93fe769962aba25ee006da11a089f729aba23d4ba9bcf3d36b238b05512a934fa8038f5693dd7f6e3295e745c0424d02da3f310866cb6f25fd19 0x0 (-0x18feac0f3eb84299d9b6bfdf556a3dea4bc272a4dc049a889d458ca89f317318449156425258763a526316cf5f248e3bc5141e689063ea7e4cefa544433a024f37b) 0x562c6bf5ec2c73f72aaec8b437a01bf55aa85a4c11f198d377f3c3592dbeb16b808f71a232e0e0ec1e8b959b31db10506e05aa140f1283d28a946941ae90cd2bff 0x49a8ddcb65ff19554087651f4910cd353079ffb853b1e7c66c45a6c0c1216ac550eb55049487272067266581404271c5b05221ef022fe8cd9e350a0564a0d95236;
Dbl 0x2f7da91f06312d0bc2f02f0529bfd7330886533296084a5e140e59677349dadfd8332c3af21e4ae9cfb3acccc827f3f637a06019b626e1895ac005b5efa3561d09 0x141afe23a51ec6a6e318ed94290bc2b3e6684d00de8d01e57079c5c4f6c694c18e9e5e6a47504828300d1046cb83324ca57a4b29d685128d8d9d714194e2f415999 0x18f7b13832775ed825966a57bc58f3cd35921f13320f9a7ac9eee200258189376f07f460647985651adceb07fa6de8aab8eba0cc494be1288df2b996fae976e9c3e 0x178facd5fe6957a4e3d783641fc869d528d031a0990fbb0fd4c81358d5aab65d1c07e2a7844bac6fb7512457c8d3f30fb4892c4da8331241c02935efd8f2e84d561 0x1 (-0x7d8f8b65386e9cbb1a92e8d41e1b97a2d3eda0767b77121a1b181f6df01a89c1fdabbe60a0454400bbe556f0e76c5f0ba775ecdcbff41390cfaff592cccd53c834) 0x467b0e3fe260a3fde4cabcd7c1837faa78d714c884536df4946c7d0a340fbbe42051fa8486efa2df0d4599245ba256e775842da1c8aa66c09e1909049ef76ad3e 0x22f78b9b121d40b6d303ceec59833cd932b278e2edc7d45a00e17de2111acad63a5f44fe9d06b8c19e88ac06d4ac7a5cbda4bbe171a5b455359b5d6d72fc31b5a3;
Dbl 0x1605db7f25aeed895a6e39435fcdc1b644a44427b668f4ca64bb4d8939fc9ea57ad9577a3e069a375dcf26d1108d326f42bd534931c3af169f4f03372e299be6bc4 0xf0a9ff816ae02f1fd1219749fd4105fd6565d44c08f139b8892fc788d7bda98d71455d35de15982d3bcd0bcea6e23f2fa6158fd9220e5b6f981683448de93ef527 0x1b6f17141da090a8cb247f3d38968622361917881207d394e96af21e0fc6a9296e4a8bf589aad87bb4526f77e71618398362d952f500cc0a0b5a2a53148e55948cd 0x5105e2b8e70c3b4e606d41f8937b2541011efbc1dfdee49e7e6c94c694aba28b78a0896e96eeea55c503f89e1150e59ab18f22c44642cd6941c090d4c046026472 0x0 (-0x387c5bae678e343c036cf11a1fcf6f0fe4f4d3eec0e92fc509fccf7639b8c666d688af91a9215a56865e3454e9cee8bb30f8b54f682224942e1fc669e5f8d9daa0) 0xf280ee14d229a44b3698abcbd8cbcea6dc32aa6689352218cebcd842e7a8f779b651498ce36b46dfdcf5afd94885fdd55929e943e3d824063bec0d76a5db743a49 0x37c2e08cc2237555cad8222cf6c6e196f62611d11899f38cdb082318416f58ea635f7aa6f6350f79dc59db73375cb45ae0fccc164224567ce444568c0c345b57c3;
Dbl 0x1eba1a763ff1d89363c3e18a8bd45b8c2b1969b648ec2111fd32bf12bca11bdd491c6fb176d632e924ad6aa6f0522fbae9cf762094ef95c61c8fca121e7e75d0c4f 0x2d4afedcffd395d1d1384543c64c388edb697d5cef82322b00142644cc66f3bbe03d44ea3eb32b2e16436d0d6a696e3e7efae0515c63176a50a6149ac821a91383 0x185a5969ec77e8fae93de73e95b6af2e2693e6f6876de680d87b1f54568f00346be8dca1315d98790d2c7c5f3d3dfc8263d003daaa65d827e5ca7b35fac84cec5f9 0xc35f00a46b0c994dffe9520636f4cd6e89fc56ef196f078d891ba1440b56b5d19108184b9f626cff25899ec13c78d0f1271aaf87c5ab440547706ea9c5c795e1a4 0x0 0x1f79779237cdd9003436e48ee6c3086bd82cff2e2ab7f41ec8fa42d263557869b912bf22ab32ce1c8b341f77bf757a28e0820ede7e404c8e7701edc0b633016dd4a 0x1d812bf16c6eae6b23cb35b00292998852192fb07249b3467d6985d1ec2f3054f7aa185da4cf4e49e5c962bca2a73099bec706d50cfbaa16112778b814970297d70 0xbb994a5d0549953edb30891f37a13361e0208480e056cf5a100fbce764e37bc4cabdd8dcdae14a52f1f05cbb942dcbd8d23ae8e0587e7f45aa81d26887d7bfbd2a;
Dbl 0x1b9fde58d2a5a1d8e88a00d743c38a63914dd189452dc96c19718efb65a456baa6480722f55498797262a79f626f4e82901bf4a32e9a706e6a624a2c4e0b2a4bdc3 0x3608c7486e62f85cadbec856136e9b47a4bd7fabc2f132c1999698bef3b7f715d3f7c95492aecac13c14f41c93b2d52777a50f058afb9178a5747e8dddbc0ffee5 0x1c15e8afa0e8c390221cc4c5b5c6b95d6f42a4fcf509d9afcdaa01e7f53aa68d44285d435bfdd1201aefe4985bbb93dc56e22b4c6aee89de1573a44d74eb39c9ba2 0x1f742379491709d7523797cedb2dd9d4736abfdb12c90ff69667d8d85d8aefca60c457b95ac04606cda2e78f0d6b699170755d14bd16785f1ab31960cea6599149d 0x1 0x294b7852651d322431db4f6a4cadd93f6a80ab43c0910c1591daa718cb4fd8ca8e056b72f4dbc944fa5388a4758ef59cf2c78c682025caa2e707541714010fcdbc2 0x17d8e5e57f16305c832cc5dc8bc0894da4ec06c9cdad39f77711443b610aac8400cbc02e6f569a0db78935ef47aed1f6794fc5d7cbbc9f28bbe5e53944724e0a362 0x1b27218b9cd68a17c6e3a7798d7aba98c4f1d6cf13cb0c136f2a3b85d9576e84a3ee4ee5326534d67d9dcce4cecc69e8bc44c78fed2f544cd20db418fa77204c504;
Dbl 0x12ebaa68982f4a939546ba8f4d904693d2560b9e1c09f3aafc7a9b7542731a835d8e60495a3d95caf3e010aa67974c72a2d730e223633218d2225f9d8559588873f 0x353c4e80d216a75ce75f1738fb65e3b28ce6c0a829b40261e498d59716f6778b61cb63d972c4d7d0244dc49402f4a94bc17e193db1562eede4aa498bba799e30a1 0x692ebe0180969ae58decc9927e27f6973323891b32438f759bc6b8b05a2f643611b7556ca035756aaa013ef7caf98ba94b9400e36e0a93203d376d19ef733ded62 0xcc78c79c4c50ffc65fb11d1808b79517d6bf03993d305fb4fdc327dcc17f8a722c657b1fe9f2f117c72f8890be2bdbb626f5c7d9a5628ac0ca3502234271ce44 0x0 0x202499c6939167981fc680b8f267c2d0c292d6db7cabc3a2e6e68f188ef3b84c1a7c60266261d303520eac82b78873bcb86e838f6f3103375481e7eb2f71a8a34cc 0xb2fe74816e91153df166c6ce368692ab641ffd065c927d6578d49296023796dd86a7ac2ee7bd76f911213148d163b06546d5daa149ed4da8d13c7c5160a15aacea 0x78e5c81fc820f62e2f050c3509e2285818c766c0cc239d3156e86c324f415e1f3f4f47719b70d856b3cbdc403043e96b7a4bef59adde88ca88276c6fa0f2ea48;
Dbl 0x648a3fede540c0f6bb728f3c0be952563d1d440024bef26dcf729fb96dd2723ddc865ab7cb11b80f3cef41c2459c423dd2108bfeef84d7b22ba3a7da91c807b95c 0x3827057cf9724bebf30335d77db08b256cd24503eb1c5a27d63e5eff052a6a3622e2d2f08474c141b42cbd8d71a40965795f979fe940210f06f7f2fe8b6813f72 0x1fa81df59a09e3b4cf5c166ed4b7c9354cafa53f5dad8c833a672ac24ff2b8ded012c93e9846f10352b4b10d90b4a42090f7557c331d06696b66b372ca7dc5feef6 0x31b9de29027f829e282ee3db838adb0036199c57eb023cbf6734efa726a3d0e7ff9d36aa6a7d8bbc090af8bb2bda68b569e81fc3b2c22cdcf43aca5bd1c31cf12f 0x0 0x18b4059de917eb8452f73760825af6a3249e1b85522bb7efbedb333d65098ae06c5c06d6364f2932d1b22be58b1c0e3d276c79d031d6b30a534975a90a54f40d50 0x13be264d6bc65a3c794f9d0ea169cbb65a6e791875f573662db1831b67b80bbd9930e4fe8e16c9cec14aede791769af1dbafea01f08df24c01694d8b4a407f87a4 0x9c3bab25d2de18237a262bb6d9e63c879dca070cf2d75750056683c59fd80d2fdd1e327df2bcc2f175dbe1567b0e83747362798e70aa9952076f61d5ef6a33874;
Dbl 0x188a731bd6947518f8f8580bb03082c620a5ac24c9c6a5972d08821b7b5d3311187a1c6d3f55deb3d7091b31304e9261afcb130f12e1320c144542f1e20ac5fbe76 0x1eccaeb2ef79cdb1896d5e46fc6ab702098fab8ee1674cb728500cdb864d8cca5ad4589d84cdc20088ef5fffd5b5fa745094ee9f8b0804168b88ce9e114e43c6a8b 0x2e5edf2873ff5262b06b34db2f7ff1c5ea1f6288a8b8414aefdc22071c54df47655861944d53b41996749eb5d8ca99b91e61613d0ed9567198f5886bbc26b04438 0x16b78528d7fa49a6285a4eedb12f9891bdd26b62283cfa2ff86318378b79d9fdb4e8a356bb6b2c0b8c4ccbdb7bba99514e470f814e13c0a837e2954ed3d244d4e6 0x1 0x308cf317f095280bf0b76ca05d199fa5fc0aa39ad9b969fd7c9997aef5be7294172e19addd50c05c0b2148a508eefee67f2ffc3a0e6f17f42137e267299d01e7981 0x12d203ac30099e9a2fe54890de783f86e5afcbeb3d8f2d19c6e5363b677f43c1757ca35b1f7ac6a9cf89fd6199ef42ffc6b69b4c65b1210a3320ff02fa8d7f78b0b 0x116bed042bd6efa5a92d810ba5d561a67dbd5b99c464d30f00b0d23023a9787949570af8111392e5abb7b5eff75eb1806204deb5c05fc9cd4ea5c3355c77f95d2a;
Dbl 0x143df48d5fc9a9afe242acd754c59b96f4f3bbc9fb5919807a4a9edb9e41562d934d10df537843a78b4a848eefa04a39784e5a0ee5c6ac0572f94982fa1d70efaac 0x122ea733e27491b2e8d1d70995daf8403882387470841aa63ed0c0a1ac3063372e373372e761824cba037b691a0517b3aac650f8e4e523ffafe49d0e9bbf1a37365 0x1acbf016fd8268af54265876bea9963114042f0cdf3586e1ab8dbf9b1b20c349030b767ce92b1d5fdba19a56fe0af100aa9a645f29308f87584eb6e7c3b573b43ed 0xc9e077f0d053bfea09b873d668fbec1d10d731a70e33210e97f4c39da1d29932c9d252a9d6c3fb3ceebe496bbb0e2c0a5ce9da6a622e016dba4318f758f298f726 0x0 (-0x55440bfd8e8dcc6e77c6efccfed943f198691616b838432ed05d1d4cfcabc99d47ab37145a3095be59b0397ce240add03ebbda917537ce6c2ef74def56ca7bad4d8) 0xccde9a45fa7aa4b64fde5165b14feb187013af37eaebd01eb1263bfbdd042fea30fd1628ce5266fb8e5f79c63ddf79486ab7aab6dc012c525f21d80da071d7e4eb 0x7fb325a69928c5b0000ed2c70c6a4ee7e0b01c5d031cb087da54cddb34236d9dd41da1d1d8ca721dffb7b43ade2446c64a504890bc75e6fe2fd1e4b676afb65e9d;
Dbl 0x149d99873d8147adf408b624e8a45712c13d1b1df370c951a585536685c5a471df6058236a895f504767fef437ada92c9981d785653a72a0a0dc6e061d3578da655 0x165410f708c8cca4c68202efbf582fe1841f7d17456c8424fab2e037e7718ceab4c5e74360ea8482d3b1e50e071ac9c1eb80576e1edc566c8372631b3c36ea5e7ea 0x2331583197bef2dd76ec1cee4e3d4ef19683e9d3de67ef401b46b7c068dfd50725c0f5d00087b6f996749e3276cf2c6e53495170f43d1301ca659dece0d00ea056 0x1bda963cd9abc50e224fd419d682c85eb462bb5d2b179681441de069c4bed64c79714c2f8676fdc9e651965b12ea4df1bf45f98ac608cd932c7239f35f882fd8b7a 0x1 0x3889e05cd55fbe5489506cfa3754dc41c757965fc4c301193f5d388d496e49f3fd0a775203d164a12ddaea371b2aa945d6645cc55a40330083ae195ee03f613a26 0xd4808166c8495dc72689e0981aa5aaa10d6dc0a83571e386341041aae5dcfa621c0bc5c0cf95fec4cc6590e646d5a2e53e81c92fa2b7f709905f9557aee638767b 0x11f1cbf9f89d455141579aab4dcac56807209dfd130799e010ec856f2868041f2a677c31d24e3f61ca7b127f7a7d7be876cc25bffb1e17089aca238d90df87778c1;
Dbl 0xac3521e99ac41344c6a44c6d83fed14d5b8c122ea52f73f96b42f90e74c431991461a3deb20bbefe1c5764bdbeb1fec1720b0a07e3d9d03391b6524d6bd0367134 0x6e996307e5183b3cee542e2dd9b25994b11a840763500f8a6c9da540693bae9f8066f8f60fd3b01424f6f1466b235a4c77dab254bf8074207d62b631691c3be7ef 0x1f077cfd9bca57b4387a8d8c58fe6d6e8c1a802a55316906c7b74d062f5912f39c36eeece3a4f30038e7f102d1983fc8f4b0640d46de1fb611245e2ae85a4b301ed 0xf6a7ac68a7748f0f79cc00ce1bd0a48390dd4d6cf37832c53e905e3e0ddd200bcbf77b3ffed4981916275f9a068941d2402ac48d2e44f2a7b9c37b825a5269fffb 0x0 (-0x2d4295343125aa19e24d9956d68abb17f8c9508518dfd7c40a7bd2995a1be554a3f0a600d8b96ccb1a6709d69ce9ad253f7bb5bfb325056d4d5a49565b33a90a947) 0x39ebb84c7b97cf13046d293f819fc5d1f20f9725f2a594c02481ac9ea40b962b8476747f4331124bd0d4a8df5c656ffc72eeb6105e6371e784c2d52bef8588c533 0x52f5ec9cd990165f0f132dbeba92cac9294bd430c53278f3ffe200837fdf24ed11ed94ad7bd1cd750a8a30055bd560223a553b95295464553acb2a436bfe49d847;
Dbl 0x3c88f3591c040a3b904e82e2482517066fdf457fc3d425c503d4f0b953626cfd26d7e89ddc6b7f891ba91687a656e4fa2921369a60f07fce54ba5b4a166a22fdb4 0x7ec11b9feaca84920156889642a39ff2165ba4660d03fa2b7756e27dfd088bae584c03d266f40188f9abd3a2d551f7146df9fef1976dd3709f3b61c3204268e7ac 0x17a6a2032a0a270cd54f09f263976e4580e7994e3ab37600864dddc43e5ad004aa832cadcb3b2ca4aa66ad3b6a626ca2d6e23c449c26d3c6441357c77971dbca40d 0x1efd84767fa4db6aaecfda597970eb9a29abedfa1564c155ef546c2c26c3322f1281af523a8dfae8b2b4b1da395d1633809e0b3632812a0afde27546e48d9d30042 0x1 0x2db968c8883b3a0ede1fc940441777fb328926a4bea363265532c1074ebfdd8ddfde4821b9d16d980b6c6f3bb11700e046b48329c8270aee00b29fd112d2646c18 0x7283daa9d90f9a57a1d9a38ef92825bceb2460f202210b2763f11fe2a4dffb193df510f94b14b50a0dad084ec8b1dfb9543ec5ff0eb443e9d6e257c210ba370fa 0x3a9ff97c9911986c98f360b924ac6f34cf128de3e4b1447bb3e77a009a57115d387603f12e9102d2107f66ef90dbd204d11eaaa5fce128ea4dd17a35d0b60e3d92;
Dbl 0x1d6dcd21e6feec3127a09298dbd697a2ea4cea245fb254353a968e09698c1165bd9ce4df65695f5ec98cdb1ad30d881a56bdee37682ef1e0f816f8aa7b0a72ce1c7 0x4c4d64ec749011bc47165340e9b856f72d51372018edd37225a3f72298a130f8bc93e6071f387d4d841f5e87ce4f099a45fc1534f1d485cc29598766ce569614a3 0x1a3a8ddc0c7dca1396b1c71e193b65b8eca3824dc401b6dcf4e4993f33d7500f71e61f90228a333154c1326f9d742ee849a845d25cb1bbd10bd975d2c0d5b62d194 0x3273b6b3763a72d5ba40355558eb48fae90a6d45f41626b951b2eb5b64675ab59bb81dcb47bb843b758c751b0702ed7a27fde9bca5994da475e1da5c51ebd2d309 0x0 0x259e1439e8ae2c8744890d858bb214f2db4e700bd0e3a33e6df6319a398f72f73b4feb8a6c87778dfa2bffbad64b46b552d6bd8f704ac6ffffea24e325e0a19ac77 0x1b107c900c9e384f4a2662c5c6921921c1e88a968c07ce0a4298680e85f6fa04115154a8a18dbcb4afeb0798df1cbab8ff43be61dca0c92b4a8fa4b42fed5e07b4a 0x2e65fb23b46361a82a103d0759f10e6a4405dafbdc56e8ef4cc24b9d8c5354a36231bdbd81e75b6d4b69185b190a0fc119d081c1f1a2106d41af96da9ab83680a2;
Dbl 0x9e31e4b78604928ef04d4605fc952aad71034e4340c6b411cc024c5e240b464e5a9f24cf82d67bf59a29901f990f8632593a3aa4a7ee0437b95d4308723384110d 0x1a21c2e077ee31c06d56d67db8c1b6e16419c679e26117ba62ae5c617983dfec21fc26e3a3cf5eb83377eba714bbb5ee0ce7b7bed87d66cc1447bad211d4ca94ce3 0xd5ee1b53c8a99d30934e21e900b4a549909697f32941ec300903c466b8c8bfe2879a701873be25dad5ba1f3359dc2ceb6c0b15b14709371b29c0d71279cdc2d75c 0xaa3136e4f5acf5b571a8eb655d9ce8e0ebb4cf81f2dc57cbfabe310b006332369cd177cce24291ca4ca0a4168293aab97780994769fe190ae4ddda45b109ecc7bf 0x1 0xe136f223474ca883770df45f07821bbfa2a16abe67a47bbb7d65450bda0f5c9c374b2df70da2b66cacced9783eac54c02bba06f723c8731ff72f7713d19d8aae50 0x30e0d005f2032e78c88c26f5f89bacf0a7796bec0f096a9fde772eb8c5131e0b466d349edc6832b6d486e7685dfaa5e5a713c337bf315fdd1ea2e00c39354abb80 0x3495c5ad544f5d953cf194e5d1874e7f7ee9226ff3fb73ab5d013003d8213e4740d8de81fcf35e637f469216d3bf6092186543755e766cfa68e58ebdf0e35fd53d;
Dbl 0x84ed6766367b139eef595f494fa3127e1ef9736076f789a8cae55ae3e7f18cf6cba84e3900821b0e901be1cf8e94df129d882041e827d7b0a23e18cfce7fa4cee2 0xba8a65bee8de2da58ebbec7a919d1631175f518cfcf0bb0c5170b01fb4becac30b4ef341b061bdf2244826e015a4c6d860ac37b36876f373a1bb59f2675c346588 0x42bf4b5f806de8fcedc867f1fa8e1bee408a6a0228557b66dec88fa56101a49a6ff5169f5c367e215577f4e27d7299fbc1e8ba0e81afbd8436965caf8e566098b5 0xe791c8489604ee6146b17b60fa7e57e52a3d16112920c099d97515f7e37f33ff14737af88c942d9113369391361698086dcf443a1f5f794da2c0532eb5f074e75b 0x0 (-0x3913ae43126ff41c751725d3cf3900fb93383aa3545fae6f982a80fd663b9f2f7df32aa3a27a78b306f27765809c5100a90073a1e40f4be66c9daf64473ec139a98) 0x2282d76502999a625d488238cb7b9ce5884a521c242d81c8d5605bf7178363f398d92918b3eb2eb3e10a900c3f857d2f7a02f83b0ff9e904083ce0d58c00c67fca 0x3c1ef561fac041e65da012494f7423a4a2e8fcb25d96497a5e4b97eaad48ed50874bd6cace168df5ec3f909e9e998fd0d5f7e06f1b2f431f0fafa954076f77f7bb;
Dbl 0x109d6c05a119d06c44be12b7345aa633f469ce4c178bacb5df2959327b1f634196f245c0bf780246743f418f512b84eef1b96b948b20aafbb6de1c1fcc87ce4ef43 0x2072f5a0b76453439d012d2802dd1a82a23b21feefdf6cd770c49490de0c6c274225914c8c3fcf0490511949b1c6dce05b40729f28c83a4911b19a5828676a875a 0x1fb3b647f0e4d56f29b84b8b888f7c162a28ad449abcccd4bba2b22d6e96b31bc52f5b0335865e97a30564b56587df377d056527bdd1c50af243e85d07d9b58e26d 0x9a17701e3179da61f1babf528ebffbae75242f8e0d114e34e0ac1b8ed6b25e9bc92961f52421eeed93f70d9663dde9f8056bc5143faeb92a9009bf9a3ef4c9de2e 0x0 (-0x869416eb14d242eefd3f9e5475022f1408a1d96c8ee22386776a2e29cd39c3e2b14c033926a91775ae4b5e618d7278e25f72965bf84a6f6584e856772f778c1c01) 0x8a0727304fc9e252d1863bbbe2bcb9f5774ea5e2de1d1d39e3fc95002f770333bb9ce94c6b28477dbf187001d5696060b51fa83e9500957e9c8597e7c328dd26e1 0x5001c33762b150c498e37fffa864713b3ea179b762bdb6a8793854c545839b1af38cd6acc28fa580ae960f7efc0b390f77348e63a2510672ffa4ffb3b1417f6318;
Dbl 0x5754c72955d43861e19d474e5552c65e94c084974956c9ccfcfd0463429ad51fcc17fe6b2a5842cd8a1dbb73cc2bc9ed14cffa5739ebe15b21ff3a93e105af6c93 0x4728363f309167ae22ee14680d51a5bb78ea6484375ce7cd0a95eea80462086edb8680000dee500ebe43014e69652cad7faada5377f98557670b91d5244cfc2928 0x11d9652e358d96015dbe7298f7361c8215c2b531d69f3216d95bbdfef3cbe7fb4f35b87c196c5b0545cb9f87b1462c8518930c79590c6495ad75335dbd719692e28 0x1d94abf6186d2eb957a1318bff58b74c72950bd7ab882850a662ea5e8d9aa63b8669f114c7e517ef5d20e17fb4861b032db95984bb0ceb4f1aaa60883041a6e5e31 0x1 0xa6ddbfb56e3fe68677798eb3746535e9fe1effe9cb8162410cf8028c919d12686f076802168c39add1da2a50076a97c8f9eeb58bc8615004277e26bad1242221bb 0xee55db8b333edda08fee794a07efb6f14dabec0a0e6b4e364cab02a91228f244b275f0361157a7c431e4cbc056f8c50881c0b6490fe732987ecfc869bbecadb73 0x50ba91e33b9ec6b06aa33cdcabb4689797d93d16f47b7bfedf1c56d5745890c9fc789d85ffe89424453897c848a113b15186fe2c3a541a9ea43e0f90789f264e72;
Dbl 0x167e24124cadae01670336641b8f23662c0de5fe4210070cd85da65088fe20746e5881bdfc5a852ed1ad08b54ec77ef42dbc959f93414fa4e6d7f02b22633130aa8 0x10e470bca4e2c4e618183d7f5f023c47893e7535c591b7966d091ec05c46727939bdadcda955be24d99002aa47e2d4af6ffd62d42d762febdd5deed672da38be841 0x6e23375769586f4854c077936f3ccc700a51923c30e0a5514d3aafb169a7c01f88cff3e30bfa64335061089282db726b76240e6b2c49adab54fe45f9698440535e 0x138e12a74e265194ca16a3c721d2de142e5031127de416e663a0402a23ffae0db3faba32578926dc12542d6a9eb37e1b67fd4ad10a0968699912ca46df6a97040e6 0x1 0x173cf370222839d05cb7e3a4f1d003ceac68668b3fa66c340aeac4af8b952de27f901ffe2b363be5e80c9272840825ec55b83fbf7d2b057267e43a822040c81ce3d 0xfcf62d56233ddf9fb53369ce2e49bee9a7e64030ec67fb7ca2333015d2614757710ad2dcce95f4f2ed82ce503c99bbf8613225623c01f523fb6cc7afecb822ac51 0xdbec2477c4053b6290ba27754fed50e237e608b4359b9d46519cecaaf6bc5a50da61170b7dd4ea037852b5e1b256f277ae1c261166d3eff39e7ca28a5c6663ee96;
Dbl 0x7f9f82a4ec723a909c6af4522dc0c8804726d45b1f2ca074e62cfb51c207b1ba891ec6835d5de92009cf611a1df1bdb4c0ef077e99c33c5b1b0900e407538b48bc 0x9bbf851d3f825244faf3c42bd0ee549d794d0f8bba9a193f28ff767379fb6b5ad487f519f4dbe42b0f5bd2c24f908f592901163dd86957d5eb9aa53b475a714194 0x49b872072c0cbabbd4ed749903433451dc295684c1d427d3a1c771e34cc85272e8a2347499aacae46cf42a5b035468f89dd1913668e0f74b73825ffb609f78b57f 0x728786ad0ea9fc1c869013ca1f356fdb1a9a43d09e816027a79275924a6bbc38c752e7c0a07ffe2289a457e22e9cbb9dd6d51704fef9a6e7ea44482be6491aa6ad 0x0 (-0x1751ed058d88afe3ad0e597020addf9d4ee9eb0e776cc6cea4224125fb35a3c55060fae37b2cc5c1b0637a9a8a52b3a3aebae3f8196bd7e6b4fc0b0bf337b8fb090) 0x1fcfd38197117b320586912e739e7b3a565d73470cd9f0a9478cd4b94dfb0fcf8381cefae497343569ea3ac1998f9b93ad1dbf09bcbb2179cc5a0f9268a8b6c806 0x1c8c4c378d6051552e59d716b5588531faad72303a8bc9cabb5aaf5d4aebb054b2699b6296f5ee453d6d37010d33f0fac177d85faabe42fa9bbe62fadf5e56f9d1;
Dbl 0x119ec87e5cbe625d67e10e262b0396db8ff3141cd041a96bb375054812d42f2ca77032185a1186a1e5681031fc7278ef40e88d0cc58404cd2b4644bd7cb5d612b91 0x1c786cff8bc68eb751e401c22a42957db014f763f7313a4a243889639b07e65ea9fecac256b57b8d488200adf1e996ef096eb51c34660bd7b77f98db50e8435735f 0x1ee149758e81fff90b469875f98d458fa6e693983dd08609c4ddcbb94f97f36ebd663fb8a8c432af69069a29cf4db5c068b57716280b223b3551c0549ebe47805e9 0xd438b524831966cfdcb3a8092cc4fcc277fd994c4786749ce576e039c97d0570349b48f489842b56873bc7e330f720689215c47a92089a5a73a1178638d63bce34 0x1 (-0x3cf2a5608bd812bfbc4b5adbe3453aef9072cab6089837151d815dc08e930508075a4bbdb55db3a73550ab855b1c96cb483b8b46adedd0a1ad959faadbf396cb31) 0x9b3c8e70a8b9ad5ce6241cddca5e8c5abb2bb73ef3b336ab9661284917311dfa27c580ccb9514cdfd74e7aa631399715a19234b98f11322607ee89c71dd3cbee66 0x74db29e23c6be502a855e3ca62a5a01931c0533653df879a5e173c034c75e22d339ca7fc56e1a3c2bc2ff421e008afaffc204f383890cbd1ef16539d511aba33f4;
Dbl 0x328537195ce40976373331375e1311e37833bdb6480937a700c7f443dff538afe63b6fc5211d1a91dac3170c42018b5e3806f9b8126152005d51687520502ef8e7 0x8fe1b97e125bc0500e41a732b0caaad051334b997f2fd96082906eceb8806e055f04677143cd97ebd7cb7c357901e9dd62dd872fb0aa3323e3f1efe65befd91d43 0xc48153709ebe4f02f6c4ecaf126d91b457000359bdd799749e2db254c665f9a215596bb714b0b8dd96cfb9c52eee6cad4e2b887e327d63c5f0fc4e9baaa1bee510 0x137a5167aaa0d2b250ffe74eff35ead0ab01c2aa5f3e3cb41c0f8276af7fdf7e540e844b4278a20e8b0548ea9a5978513340dca9395b68a5794079dceb2945c561c 0x0 (-0x45e579ccd784c5ab2e7e668717f9e5813824bb271d6040c7be89a4da97bfae8d335eb1a2d5dec3a9076167ce9e1423a9d17156de002a366d01f474fa9ddc7cca2be) 0x4fc276c1a3fc088a25a5893af029f8900c1f5e7f2c2c3e81a788c0d5818a95f8aea7b5103669119f718acd73e9d70a8f51d2650d2d4fbd5f266fc8c8a333fa390 0x1ec0351dfd7cb33474306a3d22e35089feccb6cd40b44ac9d6b358a3005f04adcfe348f3d6832104f05864cde1edacd72835093c00d1ae2350cff84fb8fa7217b5;
Dbl 0xc182011f8ccb3b01c9a3fa7d535c6c114a86230d04ca63fd5197aaeaefeaedbeb162a19210285f8d930b4221afa042596d4a9ab2de307dff183912b10417426d0f 0x1546499322cd4b02fb4f3874d22debe3f74fc5461729212b0f1819373249e5ea36a9ca796dbd2638c18d38cd0c1de22f717b0dd2285aa8b8687eecdfe4e541183a 0x1ab5aeaf55665e5df8350bccc4ee312939b9fb1d00b6fc482770aca0d09b1a8c71bf8025a0b43c704376b8471c793c7bf98954aa6d88ba986767977cdaaa3bc23c0 0x7a9b6feaef8e754d12f26ebdde9cbeec59e386536806b835737855978636881b285a9cf7d61071b3163e43686ce407adf162795d884f8a6b7b730306770a980509 0x0 0x1b3c5c0d5a2402d0ff2d52bc215ce447b9aed9511b8861e69302fcf2fb5a9fbfc7f1550852ea9b3493b7cf880ec36579d4387d7f2d657c7b7620786364ab1c46b8 0x4922a3db5b2b582ece7ba10f09d05066ed541634cf225250245a7210538155753207d1a60c80a7bd7070c08f60a56184683999e475ab5b293dc7b1854fa8c18bdf 0x2e56b96c55cc6df112b476878bf3281dec56ce2f9ddf94daf508ff51a7a26ccf5868058874d686b58bccf4c45894484f302a41680e391c140070b6a80fd11be849;
Dbl 0x1374d8a1b470bad20bcc47025c2beb926a526279afa0008c67e2cddfa5a1803ac4703507120720ad4567cf8b2ca2928ccd17903f3dacb4ac6704061743905fc489 0x1daa6f4276396303678add766eed2b258c4f0650ac806a8b133141de69d4c5da98407c8dbf6c5387e9a8c775677193b17b0fa0673b3cda66dfcbf2097b9414d9815 0x685eaae5b321c1e8260067fe1eacd5cf3b110d0d4a8ff6b4b6ac72d8e3fb5f843ee4b63ef8c1331e1fd966c8e9b6d33286f8f2cd8c5638cb0ccdbf1daa39c8824b 0x3a9f556bbf371acc82a1610de35b398b325f603b4f227879dc03fb5094fd8840b2a2019d76f7edba2700c1769504a717c081075e748d024a6bbfcc482ba3f38024 0x1 0x1dd3e537a43ea8cab0edd473369aad915a11bd85cdd88cf7698ba58ba412dffd7fa53d694d56ca04f1088e96e674b092083d0a150edbec4ee5bb495be95ca083e9 0xbd46be8552c443962b9610d1a76aae75e5bfbd49c39d96d1c9c2c15bc27a9f10ac77505ed8a8a95ba5efce173fb6742a5a6596b7f75ca82825b0f8df773fb738 0x23a4a9295ce9b4e08d7fb2a95d52d0463bb19e31691a952d83731f39469cfd52545aab365f163706e423d001f81c581a9ec469467a9e5b6418d224d96e4bd82c7;
Dbl 0x148840100ac50290cab153de8a6a1b498674abe8043d9f059281007e21a6dc45c211a9482ed6293ad0d03ca772e59c070955af4b68cc6e56f4a5d37b607e61077df 0x9b1cfd0693f446bf7078ec0e91e163aa77f541c0065901e5ffcaaa02c343e3b41c30453775ce2573f162017450d3c9fa85e627d938dff7a5fc9917e8cc2c863225 0x1b4ccd4f3de87ea68840dc48630afd7fcb4365972b3cfc25f57db6dc76e23578ef892a5f71127335516ccfbc9f3f28b51f4c442f8a7861c678282aeb71678063f41 0x13f89f720cfa1e9770834eb585cf14eae4cfb234ac1ada6cb334973e3da0879f567d783a480f7130aa92a75e22645711d2b13de9a7aedaec8002608aeed14c765f0 0x0 (-0x4a226e7560c35d7206e1110af912a64f02f007510375c4018f5701933cc5faf8534429ef1b160b4d7236666f1372d10fb1415f593028e4ee81b6bb3fe459ee3e382) 0xd2c9435161200e99efe2631270e5475d525e31b869381ff0e73b1546ca77188c2ccb0870c22c7e88e17cb256b4e57e833148a3e16052d9c580c16ddd98c7204e0e 0xcd06c482ebff31e85a1356e269c5eb02f9c4523ba772193c96581d486f07a1a8da9ad21e27dd92e47171df6702a33c9adfd0adbc90bd52f78bcb9463f6e8ba657c;
Dbl 0x1033f6d7e292653a58a4c78a00c5dcf90081a923c9613d129a981956deae72b33f10c2623e1f34838126d94f60dd58831567db6218ae31e811eb0df138a94ba85d6 0x535ef137da607f9d21025ecfc40d097f4b70b3fea29ef62e7627ce59bf042b3497fb481c75da6615c2527c4a5caad938497cca9272c8287e7a72f88bd2a3b42a3e 0xa6afdfa6830961d56a07c5d4334aa80397fedd124cb0866e1887a6b88b99c4b4d3ac402f2d8028f30fe15f333776f4fe2feaac9e23a4e120e43295047616741f79 0x47be0bceb993c7224f768d3ecdd45a2b2c848dc163ba0bb789a2dba9043fb87f8434fd1afff3bf5e2f0f8529f428f0c23c695d46c617cf2782261f5cf988d207e7 0x0 0x12d5d48282bd1dd0a4397897740b015512414d428b46d25b7d985aceb4ea46a6fecae7fbcecbfb135074bf0b793ce31f1e990e0548677913e9c6a533b15870c215c 0x8344b3a22d183daaa671b47c3848a026f1af209c0c20269a247a495a08eb9d1eed45cbea2c39e7f4c3d8c42abe6aade70478cd6d7b35e94e37daf61c0ccbd07fa4 0x2453863329dc9811ec6bebcfac009f2693a7ad3a4a0bac5ac00520fe077bfbcfaa1f43b306d12b3d54398c24182fee988a6cc3c6eba4ca8321b150222dc6f6c0a0;
Dbl 0x19a5a1cc73b623f0c58811664287fb9c7d00c3ad693d5a1b16f330cf5fbc43c2db53e6fc4bd7e051834624e17bbb124bf8c9148cc08c7de508c5f1663fe503df398 0x1c6a10bd887f5d389aeda5872dfb9ab0f6ff394d50e9296f310485c40141e6adb21892be0152c193388f702c613845ea55b9351c3c2d13901f91f70b2980af43bd4 0xd65c375bb3c56357197513085102578b0f4990733bf651b425d9444be5c080228c0caadde13b65594878c2a8e39bf7d8ceaa7e595bfa72991be268935dc8f44c3c 0x8cbde55f526aac137228065ce4535e6fdb7d1f29940c5f3b65df7219aae5c05976721c3c60ae4ce2395b798449267a92ede978ceaff6ef7c815387d93a98bfee69 0x1 0xe2764b51e460ef3b1b76fd6e2df2038284e2d6b2ebfdbef1ef11e38891c273a80bc6026ea949db5f264178775973ead2807da502ad6c123e729b7bdef1692a1f59 0x148e261f334c451895f3d6ee735c154626897233a1fa9aa2426c1357db5fb07aca655b1d00c7cbe45f77de81819f2b9346aa72c028503961c8a18c411605422a610 0x70ccd5f7cd6da9365572db7a29e1c6f7c282f37575ccd8aaecdfe6192f3c0d91d0722f09b841c6190dc804bb59b390c1626e0882eae3fef3123ac876a05f20325d;
Dbl 0x438ef66384e781f8c71e0e29d406438ea2ada37e6ec3deefc17e14b96fc4626a32fcb049359ee0829854bc501531a16aa9264575a09949d627f80db258f9f81757 0x1851a5509da86f5baf0a19beccfc96bfcfa2ad4b9ec13275075b50d34b08f58f3af244db1200a7fcf2d4d0cb259e62942912d8ee1660261025694a182e2689dbe3c 0x16f2ecd7ecf7a93516353ca86ccb3490ff512db51d0d038b1828a38f30fa6b0d99933a3324e21800fcb2324af0c2606809ac86b77217d273130efe1469c5ac043e6 0x4186b6cead6eddcebe38bc860ff03f1275c8c01b227f6fa29a934f0b638f11e77264de2ef52199645ba9f613b99e3562ca65c2e25cced7ffa28acf2fb5a2567d98 0x0 (-0x4827d910a36a59236c6b2ffcd630813e1368b9dcd0a2b37d0e252b3fa315c51e9450311cde32bdb96c8e398ebc55e2f9810973a501b8ade7f3f7ea9e66ee9ac621b) 0x8ea12672d8e047cb3076a9edf126bb681cb1635c82f15b93612d13488a0ec5afadc58d2693f7f7877c798247407d25618339cf77968fe8ad21593526e05d57653 0x8a56cd135681e1bea7e8f8bc32953a6d931de61018ede0b041c025f75212bf37aa187fa46777dfd9364da98ea4c7ddbc628d75f3e2d5c65f193f51177afc7397a;
Dbl 0x6704b2006ede007de6d1997529febb2c699ea582cc3569d460da84fbe35571c785590917a3850876e8b1a328d0aab996103ff61cafbacc55c0acf942d102f5364f 0xa54cc9cfcf77179455ae58965ead605e32bd883b1277769a23e230ea493153d4af815b6549a4b4e41e57484ac45dfa717d3aaded48125fd529f192b0164b374ff4 0x9004fc6adc182ac606d9f2bba9ad53e05225075d36d75fda301ea80148166a36786b2593277fca076d9a4075adaea005bd79c512a52565e3d75cfe2ea43f30741f 0xdfcd8b3a0b0fde269af34356711c0b9ec76d4c7ed99bb0b651d2dc4a675e051effa2f24bd665caeb0ef5c46795882ed113f2e0f41df0012d2ca30ed2cc1d666e48 0x0 (-0x2e35afcff9930dd819401e29ecf0f61337d5821772fbaafcd1885c79b2ede4a1efb0c77fae405a280a4f202f10e087b0c37e2f95a5da580b087ec0d9c4bc4ab95c7) 0x14ba63a9327f5ac11e2f3efaccc9f525f161cfb8a6f18dd234639946ebd24ff410330a35d776f27529f601720ff61ec01cfe4a34618f563b2d08bb8d22e1b7600b 0x2d07e6ebe98b2868e3d3381ed9565f8660cf8207a0c4e87b80b3e01e0462b3c305f349ee69a363a469c8839895c59bf98b54c742165f1dce15782bd163d1297fcd;
Dbl 0x89396a7fe046cacdb34fc4927c47020e9d4b35862511d863311031db20fe6529f7bad243d2b0351705f3b7bc75f9f7a689249ae8e8c1b6cd4c912ad8abe3cdac28 0x13e96a576dda0043adba4a18c14758a3ef4dd8bf44c96761627f13b35d0e9d08ffb06c0e9aaa3add3377f58cf21b2b29ed9b87e1d013654974a803986670f0ccb51 0x1852aea9dd1ef78ceac0ed46510e8ffd32c9fa5a19d061c235cc598a2de14258d98dde053f4a962b707aadd863e9bdaba1979f15ef14c5248292bde24f8632d95a3 0x166b62458f1d713597a09b70a4a37d61f3ddffc46c5e10083fbf0f5b478478344b47a9a7b9f010710e6d7ef7ba2ab47d2a3822fd046dc0b3ddf715929af3c2a84a2 0x1 (-0x52e724aa19226ea3371c381e24305823a954927e25ad5a6e01fece01e19ff0ef7237b4f345e0fca0f312e0f15c6f986cfdac06c88dae574886fc83c2fa8b627003) 0x24c7406ebba5e518b218607de6904dfb8916c739a8dd374c921964f0e4a6677942e2885b960b795a84d5360a720e6c73afbc3fe7871285b9876441049789a5a4f9 0x6023f69e2572b0247854e0f272e100b47c225526882d7f92af63b75a856c87d6e2bb5b69b0065bc95c1461b7ccadb811cb44e59e717564cb8f925be9f0cee27872;
Dbl 0xc649f6dedd58033d1b2a01091555016b71cf1de3f5ddbb0196e3ee82750e628df7ac733f9de792ed2018aff70db1cb61743ad88ca494fcd312ca278e37ebf739bd 0x14d07c8cbcc9e338ce68472b1ae2f87cfdf4f4514da5ad5605e4540775caf5eda1fcf831e691e5cd6d62d5b0ff8c512faf225c826c4e1505d762838cdbfeb5a169a 0x13c3cb3927b578955080453dc44fd74231eecc903afb8ef62b337392a301b77f4e23216d6af86abe6f4ced8fb110586ebbce966635fe37cff51096ab718d9243216 0x1f18edcab1101d0adf5202eda6646026f158e46df723ba0b5c9abfabe743a71b5db373dcb418550fc6151fdbf28ed9fa3e792b5f63c550439d45800b8a723b2b4b6 0x1 (-0x12548479970bc82d403b4d562540077c06d634df82a91dbd011522cf2cd0ab04b455655fb524de392a00fcf4ae7e7849d47e4df038c2288c752eed4aeb73346d9ce) 0x4ccb3f9fbbc7ba4f148f4ccc1afc4ca85bbe232201b21a1699f841492c2a5da16ec4be484b5d598f813fb565807ca35d56df5aa3bf7d81bd07cb4d8c9693b7f7b3 0xc0b2201cd60931c1421a4fa39b66fb04711c25b7d8666dec2dda91668bc4af31d111c9bc6d9dd9623eeedb72e2c0c78e7e23ddf247874630968d3f0d4fa98bd75b;
Dbl 0x1cc37bb381a2be3337f72f44deb700600f4af106c4b369ef6a13da0613a4547c6d1d1b16b99abf335c2736ef8a3730a04697a580d235f26088ebda2be20a82a6c22 0x141ed2cf79bf8216f89b4f0da3aa136c5a42b9bbca1fb2c207f56dc0d086168f13d6d44c225b35268c23936ce2dcbd31552a646ecedd54e0f6ad8720c8ae96a67e2 0xa82be1b92f829e8d3c7b8a498329746a506fc12bd10fead808e688ed5ee481cdd0dcd5faebde463e0999c3c50c37333b3e341b0f22ebe7eed01eb0707d7ec6bcea 0xb1a9bd430a6121d5ccf81d7738e510a3b23a958385fa93fdeee646a544df5e8e2623e5c436b0a6e13f42441caf93fe59f7f8139d70c024e0b4fc6c13501efaeb8 0x0 (-0x5159f5f2c1924b4561935e9b90448cc91d005f7be423fff56280e83de57d49310fcf22df80e31320c8d26dc72c059cfa2a90ed743de822dfbd221cdff1a0435fef) 0x19dac2a79cc89fcf222f9bae1a2cf80313c0476c9c46da85b0f8abd5e9cd05649968eb98ae25afd507af8958aec5d2f9c38207a2163a52cbd7aa84672967749e092 0x9fb1d6bd064c6aa941cd180a5048c0031a41070071f1b7fcb3b9b2bfce1e4d7727690f904b8ac3dd1943b3e0c6823bb8a1abfe6375a04efc7b0291ebf8e301a90;
Dbl 0x27bc078016cb2da559e097eb450d35d1ce038421dd37f770b86d566db74f4836ade95b04826bbb2a49e1ae35caceedce40549b4f4d00a619dd306b4168fae393af 0x1c9b9f52a609948da76f734c2f480d8c0e32b0301e0fc73761c240963ea07a9f9b2d9ec427a39f3c3d3c49e75cc5fde2724cef22b18f18eab4a27b472fa3d0e9678 0xd0ea30d6b2721a6d98f6ff17f5544deba88ecffb683144c8a8643e77418ac141ceb1c8cdfb650fc5bdfed0cb7aa1c670104faf1315c936d7da6ef525e6fe70af9b 0x1783337cd3b5ed89512bdbc1746205e04c10098bac0feb8aa6332d2a91e59bef78a93587fab795ea4ee749858616bf4ee2dd754c1d4e3bf6420b0bd9990ac5bd169 0x1 (-0x24524c5378cefb26e5f47e840644d6f4af8d4afbece66d9faf7b96d932856826db4f050a85477343a2ec4286320d70cd0cbe0bbef23041e3a45b9e913c4dfb81963) 0x3156a3205a5d1d4aaf956c368a875c607459a75baeeea77dc5df23116dfd246993914a60a623b92f8684e952633e5cc20a245f6d258e413e66486691f0656f49b 0x1d320f117032452ff5b594856cb73f8992e4e53a0394e72c61a06f4d322e19a254327469bc9f9ba30ef931882cd4128b1caf1648619b9a45ebdce54df2b718fabe;
Dbl 0xcf9d58a44e0e73754a251a570023c057dae64c6b74350299aa50a6e4f9c93047d31e4c598effdadbe0af158013ec7db8b6ede96856a78a3bf9553e7c7a7d5eaf3 0x37780bc5a93effe23bf7743da0b0b6c914dc376c92833e336a615677f03d2b97565fe40adc63e55fb7453bc7931b067a8748a88079918b33d5476395029a2936b0 0x11cd1a5af1833eac3e97285c2d418e0d6b14d3855d3465a7151b1ac3d7b0ec8959a491f250816039d4f022757865ed17864da9c55a8eb2eb173e9c333804a1a9456 0x19241e964b75a48f83affc08553d021f7ce4ecb954e793542b1c2b2ebf9ca7e625c7a08379dd60e641c7f62ae3944d7ac9d8649aa9f60037774e050ddf7a2e55fc8 0x0 (-0x4c1075241141bec56910d1dce94928bacea8a2b0f50834535db4225cbe98eb9e89409fee92b619307f35a2e1f28d8ac2dae36434a79a168abd71c35428984303385) 0x542feb07c73a3dc7aabb2943e8556d776c3aa43f05e1c9534e555d5d2f8c7b71ed48137a28a292167c3e13b2fb5d25bbdbdc901a93c2bcfff49bdfe33a4740f7 0xa31d44b6b410b087a95aede2680418954f9a398320d2c2eebfddd3be90c02056ef12c96825096541e0a66fff795912dce734ff1a70837cd6c373035a5d5dc8919;
Dbl 0xc1afa9a110db638b49a608ea9165e11e48a2d75eeab89fc9ece14c147ed15d148a150b8cb17589fd8d325f19e545a2bd1183314d776eb0cc7bb82fa116d45da0d 0x31ff32c2a16fe7d8821f016633a4144a345a6e49f06e0344d795ff7eafc76f7c7ee7e4ca9750064a5019f93da02ae5d424b708de53dd15f09d80877bfe331dd8a7 0x58465f703946520913f565899fbc584078cd7200850d2e4994fb7ba091da20f0270e2bef03fde67f9f7685641c109f091b33049c001751ad84c8c7b1826df27677 0x578d90307cf1809b9d872d76d0ca27ee081c922a2153aee92cb56f94075bc1ad777ff404513df15672b4289f2f020a662919fa225b4754337c6dc1904670b5e09 0x0 (-0x48f5c27c70cc0a22fa2e26fbd6d16edade56d9e13db87ec55e7b417d1b83261b485d92353a75f07d91cbd3c708ff51f94c6112f27df7018773e99f3c30d855dbf) 0x49452b271b02f2d0fdfc27ab4d628dd6721859e274f917e2689718b6623f2ce11cc73826b30d1da01d4ad9e5b7cca680fe9f8c7fdda70df57c4dbd8b10b4215e 0x211ee6bed4a98697808330e475184d612553b75568360f69f59ddaaf85df60bfd5254b25cb578b498df527a156dceb9caff12e4ff48b097148d83a56a0f89a58;
Dbl 0x1601d66298d73f02258d210e68b44c7c50a49b4ce3c1f6f80c3776f9c3757b9daf5f48ad27cf274bd07b5ebf6eab35615e15e37b7b841028c94209da0bdb433360e 0xe2ec31ea91b285289a0dbfd177b76f6b2b86dfc2d5a4c15ddceb102dd9fe02d86e1427eb18cb9d6301c993a489609641a9e39552a9a675acb4519a595a5c6f42b0 0x10c9759e0e64866c9d828d3e23b7978077c52d79f51793f00e539f9b1abbd0d72ef605b28069e56e4551b7e446d675589f1d272162cc8124af346ed4b2ab85445eb 0x14f1300d80fbd62afe8114194bbeca4df08d38e871ac941e6faaaef50d5c96ca410d3bcdf7e8468e74e50659916ca4f927ad3738baa36a043e92eed22a3d6ae95f6 0x1 0x6ac55eae7b2154742427e5d531ce83af7a290bad457462650fbd4ecfeaf67840bb2f6e272b1d0131132d21ab201a4a40d13472beea5b21127423e7060529a78dcc 0xf2286e294997020cee58817090f6b922a28062b86e0656fa4a33a9c836d64cc67b2d9b4d9680bc22f846a61c6a4fc45fd6940b6343136a3b97ef75f2687dad0b3a 0xe6704e0411d2502a977c38d2df5aea2e5d146d7b7006b2c1c7e2940fe31d3f6d64d5ebf527ee9846eeacf60c0d9e99abccf45e050bcaf34d0d0b5b8b97bd16a4ee;
Dbl 0x1debc0cfd0ed37fb0237f6b3a62ec5a133c90dfa4bed9642c1d4ec0919ccbd65ee431d20a5b72183fd002677307af151aa2959b7c166a261003db6af600d7cc4fba 0x1238bf2aa0fd601d59baa64507dbeae03e4ef4280ba021ca55828a61b4ff5514a5d8bf2f700d1ffb0684ee85c60884a20643a3411a680e7f858bb292bf5f98c20be 0x1d59b2ec5cb6bcb8393f6e71432e684e7c1fa544159a0dc17b888237da980d564cf21a4a04654338e37858dd91faa4b01039e9dcccd55fddd4f61ca18a2ee308bf1 0x1bf603f4081dc8352fe635b80f9f8c16746979d421ba2a4b884c26a128a08b18e108834f417f99db2997aab4828d84c2145a9614103258db45b96712d6462e321f1 0x1 0xc88f13832f49a65749630568a78c629e019fedc2e5e60b84417dffe6c79a1667632e41bd076bcd1e24f423a65c528beea1cb780ff2cea2ec454547b4842bd90781 0x1bfa165520bda2581b91156e0518003301bcf1824d14970ee2d9083ac338f17590b0526ffdaf14a73bb58e9add3216581eff38183bf6b8a4f0dbd3395b11d2652fa 0x1a24f2bbdd26bc17526f036207ff16adde23873added30a6b33e81a3038ed7f44b24c73b6290cb160159b26fe17828fd68b3d78709cd9c7be0c770749d942f8c9c2;
Dbl 0x165f26584dcdee51cc3957f5e25dac9504a3f5639fd37a61e85ced50c4c6f21b4ca12c7c46b3aa40bb8a6fcdbc7da86fa3a603c8a930ce367807643bc9a23e367d0 0x1b460ed2c6ff0f2b9f8fc19d87c18a077870b5eb472530c0c9d5df54e420f52a951b3010e67fe8a9df4931dcab50671f5a48e2314e439f3a110ee02879ba3ea1a16 0x1db044cfa9425c261e04cf3580afeb346d2195f5a81b8d8e3618f51283ccdb11750328688dd25c03d48cb4a9876f30f92b1d6903d7610fd38916bed0b7e2c3d7f45 0x16f2b057d9fe50f1ba2ae4a7801a60d8c5de3e3cc47af1098bacab0cd0de5fea10bd8f1e898d3751273bbca91ab81d82abfac10fcc246f45747cd26a45a55a206a7 0x1 0x9e92ddddee3c78c785b9571cc06b2a98e2199012cbde04fb858598e08e7523c99b9ff4369fcdc1f93586abb13cb0c81ab8bd3ae8a609d91671259601761d1ad169 0xfa3efa5453bcadd3e48ac7dd53ac06b5e1d9885f8c5fee1148ef08784afc5c2983a010af119b83f07c806a2555206c0e920d19a17c633b33811a5a80e372095292 0x100b15376f46ed10b8c4519aa7286fec2a45812554635055cb5eaf931cfe95eb9230c42326f9c644cad1984748673622a3847f28e0d0ecb44104452883c9b067286;
Dbl 0xb127cf0c9debfa15c8be9b3a985ee5362aa25dddecfaf67d2677d9caec38c80e612ad8d0f196d98e2647895983e9754aadbf8045de932c70be6ddd25ea15d8cff0 0x1e6565a0b57174e7765c6e5794fdf5217448193fe379c704e789f72316ac10a73196374f4b9a4a75f59adbaf13ca3a78e89ff0d8f1843299aa8aece33c6467674 0xe8452cd4f4e63ebf74896b102acd71001445222e3bb52edcd2d8a4f3af708e35b7f29fe9740cd3bd2dfd549cc3ff94ffc75ec7dfd35b281d20509a5be95b7a3aac 0x1b27a96d26499db6b819652f302c8c1256fc6dd20741b6f9c4ee555dc10a4919ede999d997344e5f69539700fc3c9ce4e160424075521b077764553b967dda3a3a2 0x0 (-0x3130f9bca497596d4c056439642c22b9c55c257084ba5a9adb8a1c3c692d760d54fe9c987281730c6589df9f1a49b84a35f1352ff6c1546e24898b0b91b58eec9b7) 0x3d4c094017d6eadd901a59d699fdee0616af832aff411bd608e9fb987a0668b9d1771ec39eeee6044c292e4c9cdaf18c422fff85d87b81e9b681ff10ee2034a9a0 0x9655292d7daa4969863dd9528ec80162874686d6f1e36b39fc4af828af0aadc81ce76250952f4bfecb09bb6de8d42d6570a7790b91a96386c29b392f3e124e5411;
Dbl 0x1d4f599f2829eb766e633df9106d8d8ce627c236be2e92545525fd9c17d9d92704caae1469adf20774ef6128b2eeaea62bc7d94f5a03b3acfeafc8c8c132ad9f12c 0xe25ad4c5cc472023e14fea6f39bb6b47774897091de1ef3fa75308793c02073e7f2b04984e433c527b98c6ac3d0bf0435c5383b379b3f0b8c1c6999604bdf87653 0x2f8c565f7b74f01418b158e06317ab479e8d47a70cad6f4e8d8517c72e51fc9949b8e644b58538bd2132f61c5ccfac5e4c5504d5218c0bac0e0db5541ae6cd3ba8 0x11f8b81943f0ff72a9615dc763f94740a9ffbea8ae055ad30a72596f8f568b9cbf3ee5edca6766854e3c0e70eb430b36432367b5a15645270d8e215382f084e0020 0x1 0x1a977e1f49eb08fa751b64c78dd274d4e22746c323f108b47370ba83c0139fd08dd09f99660ccf70dc7060cbcf153f5f3029000faeafd88021f07b5e215cea96a8d 0x1ad89733f5a2b0c1c1949cd8a68118cd9b218353e7e074321c19292c1967fde4c28940c20970133cca18d276841d2786bfc998a2c664c1c160aec8909371ab983ab 0x1075f732865995fee8e9f77e01f129f8da72c8c53ad03c5823b9785359e27155dbb51e3d3b7842b2edcd2f0a84b46051163b07210635704e3cd5a2f689a0ba150d4;
Dbl 0x146b538abaa492a213b0cb40bcbafdfb566a0926c21695e0430f38a94f142c318cd7108fca6f8a31dc2ce900cdca2db553b6724014c87dfa10b946c02c157fed897 0x1c38ad3a5b346d5e8c90093f58bd91f67b5f65d174caf39b2384bf5f19b02bc574e4daf6b4ee63c78404ecb999de6c5537caaf743f3153208164dc47d473ad158a6 0x12d894514811bb02b47ce2fd53b7cb324722a23f5009ec3a0285f6a4f56da00dc5b831def3aa5ff856b7a73a7371776161e4da02aaa3f1193a3bb99652c22171340 0x11ed0012019004a3b184f5679ade24bdfc15239f1d132b58d6f071287a0ff4ae730dd552cff5cffda3b49fb129f252aefdfa88c6f869ebeb0ab78d518bd83271dac 0x1 (-0xef88611e0ee98e7e10675a95ded08da0e7fbaa180b38dd241f0b845f2cc78988912a5fd46ec908f1e42e1c1a6d5986314e96eb81cbf596c3ceb4675af91ba60378) 0xd079064f327e582f9369f6ce22bf8eb118f89910ab59214ad507c01b8efda93eb8691109212d8437e8d185c70703a2b6ddfe124ec3e6c46dc4bbab84b991df1c3b 0xb703f4febfbff573bf0a512ca4641bb16f8c010ec213e142e043810d8ea7ff10458bf712f61b193c9709a5dd19c1bbacd652fa0361279587d09fda1844c720ae74;
Dbl 0x1214844e713a921b2c5cafc11eecb15128a70cafbb6ca991716259d149e427b0f3bca66d00a68604a9535c4071821e21b1667eb066a4bfef8ad42beeab6294db55f 0x1685832172a9c4acec860e617587ccbafcb5b5318ee1b57f5b07fa6a69cc4d8b1cfb1ea537be7ad90be1e303d715472bf172af884ee092e1835c75e1cf3dbfed7cc 0x1411db5cff3b26bd16bea9771e091b667f361f01f2fdc243178405a03bb6c86e89888d40dff0860d712f74c13fe52ff8f2c9181194ad464a55736bae29b9f2f8613 0x5b32a18e88aa8b1a009fadde335c53b7ea9b09fe5e93e1bc87cc4f4afe3de3a57e9bc517d2fe8ee782309b5c2c925294657ffebf050c03efe0866660535ed280da 0x0 (-0x355ee92c3d50d655d9e8a6b66d137f6792903479dd2e48db3c4f6200ace9a1b54cdcab25db1233d6f631a7534af9fe0035dce504e2193a96632363355aec19d2697) 0xa3721ffc4775401f76e3f1e08ea7112500f384b4d14a4ee7f4110f2af678ad28fd2f1e35eacd0cdac79c0ce53b4360735f8dc3be0d13bc0ffd5d298cbf47fc0fd7 0x3386f3958e7cceaac54adc42f0c8b947b7432cf58013f3c6deda4babf1e082115511f4f4ef89a108226e4aaa00faa8914bbf72949fe4d00ab2b3bd7bdd107ca66d;
Dbl 0x5daa1405934c976a59713c7abd3aa112281dd3fdfa3232853cf1c100eb0301277356fb41b7a38bbfa134ac2204cf6ec49ae607cf065b9f19985bb7f2701bc17092 0x11263eb6a9216a12d1d6448e76a3a0976dc2f39ee9915b9b111739701c3af5f625d72f548d4459499ae7257f0600116166ca94151e8c8b15473f3a17d4787129c 0x1e5b40f60c5d58762de4b190e93904704952c9ad563891128df59bbe81bcf1dd575bb6a11b8482ad6bc3772c8f553b7bff8e4ee3dd9bb9a9ff5bc6e933bd3c200a3 0x16745ce2bc00a342d9b4381ce711291a6547f23deff82423bff6e330f9b0129526d54775e331367fc246fbde580f471a900be4f439c206566e1536a7b769477c530 0x0 (-0x283571f00da2e4efb6d99c77af6e1729bdb52c83e56a769fc31aedeb06d6a7f949e51c8c1c0fa3ccab0b1f18469f328830dfed13554b752cd4e7e46fccb6e02adff) 0x112281c552ff136fb5d152a289e59ed227a449b63a82989c579848385d4fe40b53fe8bb495397574fc8a22dc5cfc9bfe2c4ddcd2ef667b563740daf3bb45e0aef0 0x41b9862d0a81201942a1b86045c6bfdd9731a200321c312a8313f55848e1d373c08242ca580221ac52f3a727625a26d47d89eac1ad73765090023ef62aa72e1156;
Dbl 0x7c1876cb1d16dc57445e240dcad2e9f20acd2ecb5c863653cb092664bf2a64ea458e777502b625fab4c299a1633da13a04e2a9410b7aad97b09d9fafe157897a0f 0x13142354fe984755f2c0cf86a23c5c070c314dd6665c4b165cff4b12ec9249cef0a413edd73dd0687ca2206277add4810efa463ffe7d6a9d2c1620aff9a81128a65 0x8855805723fd073355e8799eabfc3bda3f59265673aad4911b07f2f8fe16721332ceb1ca37f3900776ebae8ae41c82e8e52656911d43f263436f4741df2e9c881e 0xcfd02e9b810da14201106bdec3a47998b3c751d388d46453e11cc268389f1270581c3417d4f73f0ccf8c6c307582b90526c845416a121ede9311e8a1e2c6748836 0x1 0xeb6fe88f9c8d775614e0097e6a8e39302295c57063f47b770be56c533af663ff25c3492e9ee727739a3844fbe21f99e72fa31247bfb7151d0104bf065c4bd97e13 0x1e13dab5a0b1bcdb09a40cfbdbdfb7518e45fa50a661a5c1f04523dc79b5e67f3af7617b001909d8ba4d0fa5127ae0b48b880222a980d0764552d8776cffe062bc 0x325e594344223d1c099016f31cc636bb33dc704cf8a5f20e01ff2e629fd4a307325811096d3c24d9a940dd09bf85767463140404bbc93eb68bc10dd62099bad197;
Dbl 0x56253ced84f931dbde565b63be351de6e993d33a2cedca1d12ae258b2ce4de9f5ef54c74c75ab557555b25c0d1398bdb0fe0aceaf140152b072b8336a40c3a2530 0x1ede0d13dcddd3e430d9cc06266fa6743399e5ec39e4497814204c9ddc8ff0eb748692b3ff064b5e637aa6220de207e59731d88d30ee3c6f5a62b14935a7ce70edf 0x1ba47ca1a5dcc02d455e100468a7474dc1e2c330233f7a0ead674176564c1a6866df89a5050a7521de1228875507d72efc473e4d3549da70f374604722f38bd4ce 0x1436164121ba7371c1e703807bccb592d89767ea2c78019e48defe75100258e37c1d8139d837850a19277a4069cbcc9b77c86db2cd8f2e2dd1b36f66c40042b7b85 0x1 (-0x1f41db050915e166d05737c9c4a8079812828d6b2c1c870f9b6f94fb5285532d99cbb94e7ce644d6d3a4404fe0417b00195d308632cb590b8dc60ffd84a969493b8) 0xe7e852d2040081e3663ccd62d090ebc5d08d57a40d3be6a5e9705cf2de6fc0572222a74d77979681f1b0aa95b338ce198a26689ac2fe4c8408d452c5e1fe53aa9 0x3668e0d4343f879e209ab87ef0630bd7c5e3682650c1a8c1359712060c60ee35dc2776062a1b7a802eb146c9909f74f56b26ebc25cb78f6dbd0d22d18ed904fafc;
Dbl 0x65a21e459687b142b9f635c308d9276152d7cc129efa52ecf558d12469de06012e07642c9d9e6b84c3c9bb113ded89f8cbf0ed9bec3f31ebaff25a837af2071564 0x1133b94b3ebf41158f16147d39bfe11c289860263daeead8f82af97df129ed107a2f34cdc49b9513257576c89c847e189340bb42c882f02748ec9d22d532c51ab39 0x16af5d4e58ee9b3c11d863fc87abb498d81f0c76bb60eac5025567a1293f695397933dd5df87893855db4a79290daf5817f9a54f1a2f71f1726c4c84d7cf747d887 0xdaa53c89e1e92cea1c3b788ecafc5580b0185c5fc355e9f1bf5531feb6603dafa575de63a6ab64b3e052f59715d89cd03f11d4a686b4c4811761426607509563a6 0x0 (-0x58a381a7ae431eea1e980ed1f89b4aab5d34ad318e226367bb7b87b3a3ebe730ceaea8834dd18a6fbc0a7293b5dd7474c97c0c0ca4caae5feb90f310656b37e9a30) 0x142ca9469e36fbe6a5320f9e42179e2b37a4153ff21db8c59bbe431c285e322f560c353fba7e455ff2b2a2c507d5fe074a17e46c037fc4e8f832353414e8de39e7 0x2b66d3a6c0ca11f579e1a18a103d25bd3555d00fe5e1318048b8b2af72e742f22636d8906e7e865aa098ad3c80abb56c5e0267fb2aa21357cf46ee44c389c2227d;
Dbl 0x19ba36d50217468238e2d968e5e4ba9b0328c989c307f17d1aa1cde02dd6eb616fba9299d7fd33f8ce73fc674dc4e89407290af34d23d6adced294e84ca0278140 0x1b6d0ba7943eb76c9be08c0bb007beace14d99606376b9ec1b895c92e1a77c59c03280a43a009b895b3dbce851a5b79d11c01afa6ae12780ded20084293eea8d666 0x17c3ec31f629df3548d1892f1b7d310f9ae9a3fff34b0a1e5cf25d3413fe1708393dc5b6591aa5301e5020efe82cbeedfacfd25ffcb7211ba73a14d2a3f15a51540 0x15c6ada3aa8089a8f335887189b8226f474ac6c5da3830ecdca19ceb0f8270b6b9fcb4298a9af989ca37b9e04adec67b8180a0485da1c8a66a1a9c9eabf3da8d4d2 0x1 (-0x1976390dfaf34575937a63c310011a3178625753f44952579c2232ad64af75bf4255e45fd0f0cd65de01040e10ba1b396e2c2fbe09b8dff7d78439b5cc89780b970) 0x14af314a9d711db186ace02472001ef89cac8299ded760ae3a07c1caf810b3f51a16820d3fcd754646c4a857e8e657935fe38205893137d192bc27791a48a9cd8 0x1181efc95d67b16e35e0f295bbf7dcb7328cd1ad611e34d74359ff38aec2d2a721fd52ec3910912b1bea192c31fa2b45c40a95d82d8d1452544e3f01c6e37be747;
Dbl 0xce3c7ae8bcc54a8f03f49eeea0d9fd9b22644ed012a38a8e9a567358b075990fe804de7d3d649296d356954924e369d29b536eaf64887cec42366fbe55aaf336c6 0x116f0e55a366d0b967df1fa56ac48ceb12e1f9dfe514a9a1ce9b4b4a66527abff8842c9778702adc827360263f1a7f6af6e2753b15c2656702d541bdd795338e99e 0x196621ace506f1503e13b73f059a1f0ae7d4152fd13dae27044427ff5f44209f1e3db193bafbf4b87e2528466231911836f69c8bc4622ee33547ed35bc349642f41 0x9fdfd51f0d7e6b334016c66454331c1ce6b9f807e62104a4cee11487b550199c7ae540cc19070acd8ca5cc2128b38321adda5bf551ec219dbfcbec651a9b6fecc8 0x0 (-0x335f206212afbab44b89e44ab6262514068eca978b6acecdde8f5747e1a86a921c0974a670c63d399e192787640b9cbdd1ca81d5391b533c3ff2a69dd6b3387cd17) 0x5312b20c33f453fdeca0ad7e609c0d20e5d1fc6e4b9ac42d8775f661dca0e06d0aa884f05119cd62525ce53405c41918bb14e60dc989251d7e8f802f5530ee7546 0x4065f15b7a383564551347a885b371245e77a895a75a0eac9acc03d114b8ccb2ca4949fc26a4e027eb80ec05e1b0dd91d338f0af17f3622ba85ddec9c1f8adf1d1;
Dbl 0x86cffb9894ee4975945067eaa2f1d42bfe0027206f8cc6225f5f08b48a3e395dcd97d03336395edab342bbf2584fb63c6a14175075d7f2c213528ac7fb2d50804f 0x1df550ac763217c0ea7a32fff27aeade02952172155525f00541aa4c9fd9129c3b2ad4cc87be0591e3f8475ee47391b67b2aaddd75d326df942ceb3d6d8ecc914fa 0x17202dfd8b537f9ed903c573681c1697cc015e78db4b7d8216d75948e7725833548b22b3beb0f9c9ad67b059d1e1e38ba3882d0b17e8d5ad5ba3d4bbc04df12e80d 0x1379bda92d34b8f87d64eca57849a20d104cd86dcfbf83b1c959a0fdc6796823bd5957caf0b2254a9e7b18c75aa6edb47bb7c75d9fef3e876ea856806a0666fd4a3 0x1 (-0xf1e69c76155fbcaf7434f02bcadbbc94b8a1720b04127a0ce800aaadf442cb07cb1f0ca28eee2440967626dd1fe166031599b3f0111aa22e28e173f41d62c33195) 0x237f322e49f76e9f2c891b020d3d98cd14d2cda7e674b6c9e54c01ef2dd13777442c0f07dabe233b58e7a20754c18887dc283e1ad85b472e017a63be755b8bcfd5 0x520c5ed71039251fad2ce5c4c062c428113376e03a36e7fdb21fcf26265241a81753fa3566e19038f1366f9778d48f849144908b6bef6792ec15c4fcec87b2f901;
Dbl 0x1f55b06f01c83e929629b1508db9848f13d7076c255d763bf3fe9485ac66daa78d02b7fcdb737f32b2afe87fd3d35efd56efd84ddfacb67be0a39dfcfec34b88038 0x9f6b7d9a50b6580d760ecfe7e631ac78ebc19a373a83ba587a2784efed9819a2d915b02839ddcab3be22d5dcb190129a2a3dc96e495694769feb05b269a9e110fa 0xfcfcda7bdada7ef5ff4f5eb8c6298d033bf857d1a55e1c74a92aeb7d0c6e7c15faee6224fd8c68507ea4956ecdb968b2e92bcd70c671dec68920cf011e22e1f23e 0x13fe98d2d126b240131946017417d01673d907cea1acea4a7d9f31fda0ff91020d9979ca042028e6a8161a01195a908cd886d146913dbd982a2e3ae246f42e80400 0x0 (-0x26d9bd6c1aae61ae6034ff79a4549836d9e349ac9d05fbbc8fbf24c2134619ef695d024c3bf1692631230f62a8c90d823c06b69077b7da1ce61dc802922b41e7947) 0x1eaeeb4c2df405b77b467abe3a4ed9d15bafdfb35e287665cb9c4e887ab1a7077dc29671886ff95837b96d6c525a2cc5d346d26acdaabc56b09987aefcc32bb2eae 0x13942e8fcf5fb82c7af7861c7cdb130385cc8443dce930cb611e54a15920f4facf3ffe49e1525e953bef80e960f502200ccb840f7888827eb8eef1c3bc57d33fa4b;
Dbl 0x1d06fee402542cf0111c6466747eb0820a2c84a824890afcef2ddf0b91ff1f7f91d78c9713af9cf046d6741bbb413a3126f30d98023dc03aac432b554a5ded0e5dc 0x104259cec2fb2f1c60918526b28ff975e3d0946f9d45d095b7cfa16b295feb5416d4afd876806222b9089d3382eaafb10a4ec47cb5cbbf67a41b4c52f11f3d7286a 0x1d62fb789d77977fa95c17af6df73b3feb44acdccdf2578e2fb7104aee9cf390b9c8a7a6fb6483ba43d1d0e02c41bf9d6c4c3e4c6f71c38e6f5545642a062e36127 0x19b45e0ae210366476cf67d7cbd32151aaeb8533d6626b0fcfd2d6e3d579964616bcab2a0d1d7a8882d9902a482e51789855181a2ec9a9dfc5e36408357b609e88f 0x1 0x1360edc59cc35322619c4c52cae1aacc0326062a753d24c4c9e2f015a97593cf121d1ff5e8daf5934fec25a80a071e75dab4c2f619bb1208b8f730630a9694155d9 0x1a54af84c8036e9d7218b040159b166fd22d93f2bd6205966cd97ae9d0868c41506a337e3e748aaefd80043a7d042d6e439ceec4a63ab3b4bc07fa8ed2d63b5f54e 0x175113ca505c67b104448eb4aeb906111dab4b24cd8c0e4492947b8828bb90995f2aaf3d4ef030a44199c173bcd19b1e88df774a588e909688269499ea342098d81;
Dbl 0x4b7ee490696430889a670bd27802de64439f4e4271e2feb5b56ef5aea6f52c52d82b104ca823c3ed7fd1957abdd92f6b59c6944c4c2b514b8c9bb36fa282d40bdc 0x1343e7bdea7be83bc78eab81774c3249f4bc413db107cb4b321a35c4cc108e8f10cf3616dd8ccf39be7e1028d76d3cca3e73b6e62332d470147f762eaf77b602085 0x1f07e0baeba4bfcc116a13731b3341d166713d99e2a803202101a33f6ab309acf222cb6590d46ae31ec27c4421dcb616f5b0c9a990afb204d4286999f159d38d508 0x1cfe7210d87f46e09902d9a53b43c72bef145331ec3e054a85b56ba65d4f5cc5060579c198f392e8fa8a8d0aab7d72e6cbdb0d969298eaf78f9bd62441a787707e4 0x1 (-0x101e1985c482eb9dd65d52a93ebbd0ded7eee0776c5c0a19b23a03847b07818b91fa08ca3b5c5e21c1f4dab329990bea0e862e2caef88de7aad5c2e69e39878715f) 0xb21cc6933fd002081bed10c1c8857565dcd37760fa65908eb27a9c5f2362b6a798a235bf1a67bfd9704ba735f08f211046d842ec5ccbe05a8a9c172fc4e21cc49 0x4467545062f5c303bc227b84f617037d96648a16ddf0794b4eab7eb6f5d8bc180588064fd765931749d8c771ee7ba0a98fc4b10ce048a8c9d2a24d28ed0baaa23f;
Dbl 0x134d9279636aafe9f12489d20438642bba5e45268e5df3b119077549f7ab64e1f9f9d0b1f6aad17156471f0df121e220c87300e464724041d63e4823e1b35241b7 0x949b3d81319890d917e2ce41b01e1a91964ca7becca5f96675d80e2ecfc3d2321f8ef992e408eb5b24f882dc2fcfff1ea2dea5203bad0b5824b6675f53da1ef419 0x10131101643f35ccb2395acc92792a11210ebe2c36f96b0614bb60eb76484bebf7e9a60f2140f91258f2b90cdb5e4835d8766fc21bdf644e53885c66efe87c9c810 0x9fa33e5d7625f2e36107e9d5c4a50a0db5776c1c43d6bb4cabcb4e1df14516beed6467daf4c40840c2e87fb14703cd85445cc941f7803ba92340fb8ba3a1412c6c 0x0 (-0x20749d11d34b295d89a2a1eba3815076b9f7ab2c532dfcaf093ebf11b934d94b65824c5bb59e13dccb05549c36ed095091f241178b1079ddb1c70150d24aaea1228) 0xba4d9fbacb299faf51a79466ea303b3666cdea86be105fd11a463911031baba6bb80cb209d89877207d22d93c6a01ec487a609e5165c5aa1d8118540bcc4c452 0x604be88becce533ee02fb5050c366cc7355071274f013067678711938dd8df3ee143db050c3298e87531361be39590a2859591d80590fd8564c35a84e948c6fe4;
Dbl 0x13dfee6757fb750973e05ea3b21935f959f6abaf332d7c1f27bd68f3d45cf14f2f7a403dbf5b837df1f1f11f7fc4eebb48b787aed64513ed0850e7e86de0690a6d1 0x1e5d565f776b34f0f19148b45e157e353b26d8170467642df2c28d517522ff653b3a939a76b9be255d71d88c5073857cdb6102900b33ea89845bf73b24cded2eb86 0x17759280d580a6a7f28c80d32b5e8d9b938479ba949d264f983c9b07fc9d6960578e252209ad2f97a05652b994b86479736527acebfeadf8e0aca5185a2c4b5de1e 0xaec5d789bae541c9fece42fbcec6373de3df264e862fb68749af39177d93dbde6be5bfeb786d09054ddafa172897a750ecce7c1f886e62bfdef6f3ad06fb4c0892 0x1 0xbe140b404891b503ebc3974d7ed90ff8341cea56afc0b6eac393055e1ee29bc6dd7da983add39d3dfe1b6cda72e26d8b5f58ceab728d742e244fc96d36dee59530 0xc580a2468f766262eee8465f78f5b0429936a0ef9d4805b8824f1f6d4d7d7844b9009c0f71f15a2daa4a135f2e852714ce6938399a55cedb5348d738eaaf3d1d17 0x6c8c80c3af2bef1523321dfd77345b01416041efe1ccfd41226bfd818ff22ba85acf042348918c56eafccee681622f46a035715b82b903fba446dc2d6697bdfafc;
Dbl 0x22bf6d06cd9562b6af49f764727fe3da63232636d2014f40cdec16d3e75c96790c64681c8700ca0ea32327ffed151294c47ba9d105952f0fcac8ba31b007329821 0x11d053f2778413fcc520107e9039627dc6cdfa6cf793e844a6228b7f0c9203fde3af1bacbd41a7c7ff28addcea5b95e94760fce34c5fe2d537a2db7055db286bac2 0xc82239b9dfaf90038160b90d7aba1b801a6c67563fc513415efb574bb4918e22796149b3969c518e5bfd5e65d19130e9c37dbcf1e00bc29398f67e718bd10f90a4 0xc8d026cffe720f42c713835cddc1bb77458ddaa0cd37be94ca001d26890fb67578b77edb978165d5e492aaf6617ef93940005acbed407b44cb91bcacef2c4c30c4 0x0 (-0x53410e6ac260a16cef581908821fc8141050b3690308dc0c1170b2025728e6d1b54805a3bb89dab01c4b5aa591e2177484ea70fdd653fc7099a077362841cc90553) 0x25bb40cd6989f30a8a8ff97d6f26c3abc9273921dfb19e1c69df67b8aa5ae3b2b566969a5549b645d097383605d37c3605e1e5985a30632edc8a8cc45dae15d8d 0xda0e6fd45d2a980754b6f950e150ba0b55b10951eaf8c21c0a83861edf2fad74a9c8d29d54c46c0cbc61ab6c306c8e25b27422a3e32fe6d4407c3e315c0b6c57e;
Dbl 0x187aae338cfc2a94cebfebea40c9c69fba1bd9e1ad37b67469489b2f5c503807f84f51fa2040c82100adc451470851ad3a603a1e1fb9294ad7680a5368f84c511a1 0x159e9e81b78020c58567baf95b27b1604fb247ea702f44de1a6bfeb2a9190617e187470a3cfe0898e4852e2e9bab85201974c8c679d17648c6a2d2f9e08a2abb00e 0x532fda492fe7db0c276dfbefde8ca48da9c481a752b01696d57974bd472a7f5d61a4554acb2bccad836a8b7630d33f04b5dc4de9f13996b5bedeb81330da533799 0x1c31b570c003f3373fb855853511b11d771bb2828764a3668bb68ccc6378fde60227d4a280439f2f1aa37fae4eb010c92dec341cd28e6c8c710008767550fdb0ab3 0x1 (-0xa9cd278e2024a84abbfaf7611440257d22f3e9835e75221a089a1a5fb8814c030c0e4c7778b196dce45aba1c1a60b1b5fc510d23753c3a07c559974341492e453f) 0x12b9dba150de32e604c893b556211975bf01918de49b1d17f149e88cab2c15c77a13c65903625e476c9c2decf0364eb729fc8250a8b68b044d0129e3903dcb85e51 0x15915f1403e4ec06ad62deb05be95c14fbbcecdbf8d7886e76b9155437362df18d6a9ac57a5f36635d10172bbd8b3f90949c2a35d78c46881deac94011f9f2c2aaa;
Dbl 0xf366d76e5832d90a61987454f0c5bc9f0aa3282a6847e357872628656bbadf64388f427ee9c79b1b889ea15aab326dcde672e2410771a5e219fd08d0e1d617b763 0x299335c96bd4486f801a1178f85b0785c6962988829eb070d9125b2e6c87ee0ede9dfc0092d5895af20d85b1ab422bc0bf63eac83e81afa390a2dadbb4cd046713 0x1114595afaf9c6e9cef852f2205bd400d1fdf8110a904d7c5a7bedf6330d2dd61e3d9f4dc3244245ab14bf3bcc02fc59de350803223044fd597e747e4433c5cb794 0x13056b2520c2dc3e8d6619e1cba200e7f348e551e80559d70cdad8ffc2508736f39d674a33d0b003356455d380f762640d7e8a19f5e95b4e8d98a54c253d5a748fb 0x0 (-0x26e0496b60fad414d60366bca6ea2a114afb5740b3a797c982412b1e703d7e97c19ba33385f905784756277d334af24e08593d3752d7943e5fb401f52427401fc0d) 0x73b63325ee54ac21fe191340452db83dad5db6bfbe256e364991a13358561d4b4855c630a24dd454a6403c45bebda29898ad0a684d1ab619f9464d32f4173316e6 0x90ae46f5760f09774d1ec29c95585b333a9bda47204698501b460ef0092b46f1794bc5dc495a1fb638059439c3cba43085592b6e97819c15201c01c5a98146491c;
Dbl 0x1c68d546c93e21c02d1c7a0e6536a79d637e934dfbf5d789c70770eb19659ba4e24a6d007161073527915227ad6cccdc1ed36406429efb71b3f49eda269ba384281 0x197e06b04dc24a6b7f6eb211eacdbbbb595f8584769108c5fa4564564fc65e1bac86a3d54748dd4d7c0e8aa7d3fe3e8af4057e0e72e400294fe9b40a31f03d3477b 0x61cccad6e68461478dccefc3e7e5d385cc49e47cea97373f3d44629a5fb6d3923bb8d3f65f6cfbbfab007255d96efe861b7aee57f372378c9ec7689ffd29bfb3d1 0x91b2cac48fafa1b7892ef05a4b7f4bd0309dd141198e241134bc15c970220c541633beac1e47b4833124db346b5e43117f0c09e11041ad0e92079a3895c9311f97 0x1 0x1db178b15bfcafc2a5884a39d65ac5bcf72edd71d3a157701d13c66172732434ac02a556eb00b73c489caf3026f94c99aeb0ce0e240c093671d5390c4016b6f8f10 0x1938ccabb9bfc28c32ce10a4272495cd73f621302b56dab9383351b7c57a762a7293053150f51e6244f61c2e711655b441ea3cd7935603b0d2fae54bbb6002550a0 0x8159c18f5d9a80686bc44e671a0bb731ad6832e5947ca6990f833448e94838221f29fb9a2f59fc02e36b51bc963a284a76f8cffc0868a2b76bf9832c45bb2e924e;
Dbl 0x141dd79da9929d9f0735f085be8b62357ff985b7561f0a134bc8ad8fa29cb3144593369da0d7a235151b62712a7dedceb83a91ea3e088000ebcd00942d60a7f56b 0x1d0e3d2c4005821ae080941d89d65b65761fd319607d0da74f26a05848ca27549062cfc162946c8f13d6e3a67f061570e7ba5c577aaaf2dd971c8be45a27fe18629 0x10e13171ad82f307a9acb2d7e9229277a979c371626452e7305a1d9cb9ad614ce9ed3debfa9ff52fa6c091454539975872421285e386768d1833664ae19a334b91e 0x1c6fc9840dbcc8509eee1df460f76055e33fb26b1613fb1eab1ec3fe06fc36c71c23d413e4b470be6837a70154f8291a0c4b21b6f8390d4bb8cd2825d7c83f1c151 0x1 (-0x3c7199f1c5fc2bca6632af5cb53c8195f69e3a65a06781cad9bbdc1dd8efa277b025686a803c0dae8a3028013fd9a9be4b22bbea276582b3929a159b27bcef5fb6e) 0xca569598e8c3e32108b5867c193fdfbf323e831082757992f8d5bb9f79bbe1ea843be4f058f9e5f47a2d1d0b93a537fcf1a9aa469d44f2224df126002aa81a66 0x11e062dc555706d24e0e8f9d929c8187b078cf7b03a0ec98dad1b4ee351886eb5133c8986e30a1bc74bcc089259a5389bcf52ef5502d5e8661bde18654cd0f1b14;
Dbl 0xd5da2667e121af4929a0565d638e1a4d03c8564df724240893ef43cc8c51e5c1be7e50df0dbd468999412551d8cd0d400c0510491125d0e16ddfde0ae73219f8ff 0x36d7a04eb2b83241ff0efd24927135c5f534e4fe2abea7a5eb32efc7aecd7d9f17a1f96c94495525a1e12f058f1f2119d04658ae220c0b391c336b06222feda8ac 0x1754434b5116207775ee0db0b5734eef50d4e4ea52255ea8ca5483a2bcbf16f9c2e6ebbbe33d67d0cd0e9124f629f139141951cd54d06857c8f11b8e769ca40933 0x19a0c32754d9fef6c08fa44b40af480916cc84c97dd1232cf073715bcddd4f7a9ee8b02a994fd73cb9b8d0b62614235f4ab5f6cc988a322a05595533f804ff3dd7d 0x0 (-0x410bbf3298233676b7af577a0ec0783ad8487506f825ff9a87fa4a2199a8ff8d133d386f2873f2f811b87ec4d1c271316927ae87afbb00398f8ccd318ffd06c1214) 0x59525ee725a83e059b805a496db776bad37d7e1e3911f48a8d39d5f7cdf202368df796f7b4e19001a1422baceee4a57ff9c25deae3117d9f4c2c82214effb3a6fd 0xab44c8f1623d47e6efac95572d80c91e5eb3c967e527ed169908a70d09a9b9402b51414efc9389f4a25d08fa294e7a967b40a3f5ca90e67550dfd0806e52290ace;
Dbl 0x11f2ccab3a788e2762204c4f05395019bba9a24093afee6f4eb6d3d24a1957eafec158946fdccf3eb6aac3e626425f3b9e5c9c61f233029559ca955301eeee6eaa5 0x5f4e550a9ecd63163a21c2061120feb5458e5611a6502918253858f56b652a2e24ae7a2f64d86f654942669bdc0ecaca8e424dfe8947deb6b6e67ad2a7a597628a 0x565998552d5f462a7804f1401ba32160eecfb67fae64108a0b0646d53de8707cf056a1b7b8dbf7865dde88d2d633789748ebe74805036de2904fabbb26b3b110bc 0x1d7894b4413eacf2bc4ed3b1e81503710afa68eec846e7e8dc5fa96d243685370f2f37f3d2f70e5c0589ec869b310564f42040aaf98c42c82654cf0337a8a564621 0x1 0x88c0886132e1dddd9a6f72209161e5f29c67e231615466d4bd1319f0615f583e4b85401cc29320be180907c94da60742bf4ee985554eb12f2ed41bfb188e582ef 0xa112bb2a8ff342a53aaab16096db54b32df00ffe731bd4fe1d8a2ab3bf5f897532783cd3e1a88a86272fb75544c34a515b1883578000d8795e2cafd3aac1e4a589 0x1087ab62bc080da8c89bfe264aa4a9c84931d2b83c5c1a5c74df3a05696373487bbcc7d61d322a38ebe6211159577266f82fc44463cf77690b778fc329b9af9bcaa;
Dbl 0x197abdc74df12eed0810e7cb58fbdb8f573f72252bd67216a9693c53206a639afdd8482aa6ffbe8293de565864c2b2b823257f253d3810ba602003e9e67cf5c11c6 0x1f1400e0a3fc2e9f129a3b1085a3048210bc8478bb25555ae35f3b79e6a91ca08f966ad16a097f5f7ce98965bebd250ddf84c143f8de6bf14c480e86d53083e8647 0x1d6ca8fca6dd75f692acdb5baffa43e5d3e29ffbb214f4541d466b8e1d9a3536e11f835da5068c9b6cb44b84c9436f784464aa4c7256634821273dd8aabef069132 0x6e0e47005f0a7925107e10fdb6f0b69439c60e85f3fad369ef44a15700d360252b47cd18c440796d7aa9d03ff03c79ec95f639befb611fa1f2659265549d58dc42 0x1 0x544990c3dde88b70448bc52a7f3e53a2a909ae2bbc8c92ffb478c3fb706bd5f76a4e04c577f20a75df19267d3953f330999c2423b456eedb88bc56b86e50eefc59 0x14499f52defa4a5b4bd74a10fbd030d2055756862d0fbb260ae7e81bb210fd341566499a61e0d8b144cd22920ae3027a2a5aabcc68da2aeb47387f9577357e16637 0x57a14a98c3de19fb11deb9a4aa2c717e144c5e44599e514c5667a92a3feff0b58b9f6c82cf209dbff642a385c9435377b05d20ac67a8e28bac2743875783a4e4e2;
Dbl 0x51f3f5f75e42ae6ec9b8a3076732225d5dce6ed2da43f682da0bc0e798c5c4319352c00fb7c8049dd1f0e00609d0fe6fac532299738e88d4d676ee18c254d48fd7 0x325fd287b9c1769838a6294594361f89d600c40e3c5422ad5434d99a148f5e818d82f3d75f18006c308943aedca457b4054478dfabf9ac0b2bda14abf4d9b67c0 0x10120dd9c0ac5a84a92af9a39433a87dae119fd60739c9f12b4b2efd35d62e255571689cdce23280fccbda65f854778759961fd5b4facf068485465deb69d02479b 0x1ee1a10e1c426d287a6194e7400ece6286e683b4ace90138360b06a04c948d420e08e7dd92aa675f10b900220fe080b62b7f7ccb19327245411c3472293baa31e87 0x0 (-0x5120febb3e9e5d7ecd2b0108ecad53ed6193b00c0d12743e98f4dc1794a042452f5287e8e2c97a6ae0aa3e1706a3fbfbf37ea02f2647e3ae49c4b4a24aadb9686ec) 0xd1e2511b4cb4735f59dbe864ee865e8f0fcb253bc1d5d74f908828418191e48be2f22606325c8b913b823940583002d77b78244d6211da3858e6fa4a5b92e8dbd 0x4f168e68ec4d0ccd7bbffd7d5847a03f7cb2d38669ebc5514cecf407b86d1a2c97510fdcc23c5e44469524045d392fb3c1da557c365e03431499a4faa81b30cc6c;
Dbl 0x1cdbfaf8ac50127d708cd76d8f3579135aaa130722229e534b72106445db67dfd8cbe9aafed33243f61e18920961eb166e8e86e087bb013fcef94cc33afd29d59de 0x68fed8bc0fa4689189ad36da315dc202bf8caf2f61f62fede028e3d84aa91814aca4498e7387d71897a269c44672d9af69787c7f18b4a51794067f879fc7734385 0x1d2f9c23d803e468601d1811b8c9a22611d8b75228287175b19be420b636cfc52a219b350695c86a30200954202e9d3027e871885f1cd72b4a484a0854296aa1400 0x19a27246c6bf7aed7f9dd2bba27e59ff5ddd35d1181cf123cf51a69c1569fddd36c33e5af0269a8ee2b662a76a7576bcbd6dbcb0ee20af5a91eb721c31f8628243a 0x1 0x1cfb9d88d077ae918c500095d14f5db67ae2421ae2b162809efe506126f9ca754cc7362a95b77a52640430244dccdf885ed027f450ca1d8c1ed52e8c9acdfc83929 0x1a06df6e0997b92e33cf26ce8b1c96008a0b27a99f9c8dd9df6a4c077324460decc05a03fe65ea0bf1c7f97fec6cf3c96c5ae385936dbfe9b1945bc4372d0d1f681 0x171e5cc8540f9a674f99490f39b412fc5015237758f8dd31bd90780441a16ea585926103bd6c20674266946e379ce470ccd00b8ff99b36c137faba6b3031cb2c74f;
Dbl 0xca4e48bc1807dea6910673e590a34a350ade49764d3f9cdd90c44c549f2e896b6e24721f4077073936adb6e9faa103e31198e2639567f4e3e6acb83b5050697760 0x18974445203093718ef8e44a20532ad6596594a5d7cba52281865c264d6d76816d4a69508493d669257a14ca004e08821303d1f9b860d0e9732c52699b9e6a0bf64 0xad381df171377ad2a258943b3455741ffe694cdc1ca0eb93a824a85f05e8bbb4a45b8a5f7b449e0cc882b2cad4b5267f9a7ddd44ccc31cf28863b108c628885dfc 0xdf8a946a0c9b31789a1ef2382c2b149d293364d1e53bddc5c7c3217373d1affdd7fdb4862a4a708640011d244192518e393b5ce392a79680614158ede5e0d28420 0x1 0x1306fcb59a9bc27662b2583fd906767377a80a48ce65dfd50031477cf39903db1360e9dee941cb69d72fd7b5f0ba3546d736de93e8c0eecea1784a56635fdbfa948 0x4fefd15c9e9ab3f122b65f855a61d1911820c52378251c4f558e3c94ccef4d9eec01e818a10e2c580067b6fdb2030c9e8600ee25a7e2e297933ff2b6ea511ce26e 0x5853da6c0f607d6f61c2ecc7d7540596bf3ea1398a5fcea64b5732e65737b00ee0a02cfcc015ae915049b65594d80814fc071d6d78e4724607699ad2b063b605fc;
Dbl 0x3264bcca94e00e55e5d19892310ba5bdd75f183f96dad801660565b12af0ebc0b0a76e72ce1375d9856764a1dcf6fea7712bd9aedaef0c32aecee57402bd782d4c 0x16187f1508da2a503bd1663c40aad24a12a410c974c96ac3f48c411b7b79775774cd47361170fcb316ccb768aa65ea29d0ba94ca2294dc772b884b4e6f6783099af 0x6eda9d11cf084658f4d097534de7d7dd7982ce3a7181354397d319640942d659d65484ed8427440d051e9c19223ed1a18a8d77018ddcc67981ecd265ced518bbba 0x27ec5301756692153277e0ddfa8588c46c183dc63023a5e8cfa1b0ad1f3ff29f87d221a7322d9b60ead5d6155e81e5842493d2f95cbf47247a4071b2c36e7025b5 0x0 (-0x368f826578b6307acd486e10d27ab1f289a705fe4d727a59120860765fbd01361a823e5f9e3b01525c022535e9e72e7203f21112afc55cfb4862449e857c1ff4873) 0x4f5c0b195d2ffce8f0d048f9e8a32dfc37e865b6063c44e1fee4a2fccbc75b30bb560b8ce4442cd57fae9d8c30c2c42d63bfa61d3954e802a49e1d9ed8e2e49e7 0x3edeefbed13037c7aac5b4ff407afc5644b6fccfce0a9f01548cc60639dc9b110436d691045a4b245a5fa25d22434063d7fdb413611d1fce40f5222542fdd16fa;
Dbl 0x748837070f644499b4c056b883f6cb650aadb1701add65bef16fdc6052fa6f99a7986e4a74438342b46746989b646139e8bc51a5cd21156a0ce00cd20d2c4551da 0x23945e4869d4b0f305d97dee85a4190a48f1285a13c7728dc706b0ec262e4a72b4c2fffe8af3ae339481bd93b7ae94d18cdb625d88b2f60f8bad3570f4d827a280 0x162621b68580adece0c0ec9b4d25ea0d400cf10076029866124ce1f2f0fa25bae4c6b2b5f3ace0f447136e73dff0eab2bc4256b56424ddd2f1744587f935c577abe 0x13df3930823cdf410b73ce5d585090b96e14fe43d38cf39b181bd60cb91692b04981173628c1c1cfdd849b8f6eeb00dcb7ecdea44a09ad1632cd77f7601a008f72f 0x0 (-0x2a9de3c6549e3f369f6e94cf570af515b7f38d66b5f3667a7431fa40f81c9064af044dacaf0b1a6c47896aae9e5cf3d01d4da59ffa39a308f7e6737a2f78d877be8) 0x1a85dd2c74a3a0c18e80872ac888d50a0592049d4d1505f6c112923d8d08883c4b7a948929a410e0511676cbc57416a9d1b0af5a1cb369ad8049335fd59ed9283a 0x485dc62ef2f4f570fcb0389badcacfa1738ffec40e7076b7c973035baf2bb01d37c68ddc2814ce08b2bb00322fd41f5c15302932b8a2d24e5212eb1c135fecd972;
Dbl 0x9d54420cf8f3abc006599b218fc6d50c191c71107eb8ae0612e385ab27c7ccdb8a954908beec7de05d1a8a169a8601fc667ba60fb2827d5a3d4958114b8acdcfb2 0xd94422e43e7436e4389a98521ab31e9501d6176cdf9ee793b29d9a6870b8278b74a1cfa523b27c7f2d27cf9990849ad2f5280fc963671a28355d3f00ecbecff63c 0x3ee68eefacf1e575079807d998936e411c42d9d64e57432b3a9b57597b7d5a103895def32463724cde00d3948d81c82c13a5b83150919e1298da4f7464daa8dc76 0x14a503b642b607a0ecd3ee59c6af0fa75471b10ed34288afa14691683b57622e740213059674131b46759edfa2729f9fe97b35294254bdbe7564ff670081957ac43 0x1 0xd25ff2c7cf706c767012afe590bf6f8b6b64689bef5076191103445b29c4894b7bef8fefde991c89ac6800c589be39eb9c6da398a9535b4b9758a0f10b7000cbc5 0x30583a5fa97478cc15a71a87a96bec23b5a9cf5db8e51f83712a8536e05cb7935f0b9d2c14a9c7d31c569342a749799c97c18d8d3d5ad037cc73da03283b89e378 0x657ff5fcabe191d8676e85b7943d954e5b9397576c67def281fe84c912c3644f8a6666b44f5f7cd2cd71cdb83d1c8cb5867a7bab88ed7c10009b6a0926a419639e;
Dbl 0x156c31b8b2d303a4c7020a05e8b506f068c766ff0411ebffdca00e85c0f6aff12b21584f67e887a6d622ebbad4232a761b886df0ccecc672a6f0e09d51a3e19f55c 0x1302662d4943634f6fa9d1c19e7a2ae38dd11d02e708073044ee5787176b2113b571b1ef0402ec09be2d5d181f549d916b3e53e1a993ed58f0b45d90cf8876b33ac 0x1ef15cba83e46497cc955f8653315114adab2ac3ee1b7777b32fac066e1bbe7fe62e7f564839b615bfc56ac592e69b8c5aed2447cefae37911a454c8a736bd6208e 0x1a91dc00faa3e01ed3dfd7c383310705c24c4473e6f1e748f63b821f6fa0616501d86b0b4e383bbe34a51fe179b3ac1bc4142d1aeca2844992a1765f3f43764c28f 0x1 (-0xc05eec96aadc4578df7d3077e1367f801ef8eba8fd6f41f85c4578d26f4c5625e0d3020be0b3419df3cf1c0f286cce1bec79ede5a3e2248d26ef684b8d00c636a3) 0xe576f1256add2d37a957b5372d70bdbde8cfc39925112a09f63ed4b2b6cd7c893db3e3394677bc898326846daee877ede658fe589011f506fcd13d8aa79de9e714 0x11c98defdbd6862356967415099de17085fa661e7867b26cf77272ee1b0dc5ca171d41b95b305a398031cdfb68c1609a8b5a34c2ff90ebb16100d180c954e1f36a0;
Dbl 0x8b646e2c8206bf1b73ae8b394a926574087359784544ad6a41437912084c93c60d5f143e982ae9d4bb71d5bd7d91abb0e8eeda230c5ee28aa17c8472ec0ff69d2a 0x6993237ae7d2e0c67e7115ef98cc0292d8977277bf73fa87219f6d1b650ae6a31183c64076da8f19edea27a922770d2eb2b8dc2603d11fcd02c06a64ce981fd289 0x14963ec8c5d48dcf0ee79347e4604f98f9927e7b1e503fe728f876124dbb9dfce3fe09fde3816492d9548f33272f178d4f2ba00bd740ac1576e83481b595c151734 0xc6933f59ac6354307c2c062a4ed6aba6047a5db6b10c787d2d460b5611a72a98459758afc9543181f4eba9d8d2d2cbe8012c61f4956db5c208856ea829ef4b6123 0x0 (-0x11075b98e33a661457dbf886b878e6cb92f3d67fbbf06cf8021752aee18755542bd3d9f38c64ee80730bfcd1699a6964586441694090f721fb7d44c65604e76e7eb) 0x25f31b854bb19823eed5075612697fbbbd4ce2e32c4d8814b060e4a3b146700640acae184272c32bf1269af5ff465812e0e62336709c817dcd75227d524dc1aefd 0x360fed301d82596dd963a87620b94f81030144d7e41a278b72de2d3530d2f3a9ae09b938f49b627f28445bac64511131d2f371ae8e430d96f7c52ed7c5e658d104;
Dbl 0x7530494740e9357b92abefc00dc7ee77541b1b272ef1cd8605176f1bc18ad7c7bf2e32c340aa52449c1d0c795b68a96430555985486dadea65de42de20950b75a0 0x1799ee354aae0c9c30f2d6a4cfc2ed4a7f431eb5a3dc4824bd97513f7c0a917a2aa9ebb5a8e256c4edf8b9eebbf7383f8f4c5750f6adc39da33327d64092ccbb0da 0x83c685ea7ad14001ca8869704eb163a66f9aa6fa0aaf5715e13ac58dc7aea4de851d35b8874edc05c476543e3dd38e79ad4574d31c2547c11220eb09c9cbf2d15b 0xeff440263cf217036f43aba29c9d2deae465871d81af783b482a5923a461cf0066e50ae5e8b522cb0e5e88bd63038935bdf3671698f4e5f2cf8ded00c56b5421ae 0x1 0x5579c09ecc49619fa70e077f8a28e0d5442d1238e32f73cc857abdd0cb4f29c0a23af9d3aaa7a2796251a61b08764614c6672e455a82fea13b884eada926ee9ef0 0x1ad2960b58839c988a5cde808715e54909c515c18e89ef2e9fcb1197068b787cffee82632d8b3b824ec01050e8428f74b1187edce4ea1ce369132cee36cb3fb1ec 0x36ebf1e6787335af14ad2bad488c423a2bf970df58cb953f5ebec830dc015248904ed0ecfc21f1a648f56d6c44a71bc84b90b9bceb09fe2dfcbc2fc1bae79455cf;
Dbl 0x1a711d2b6a3b23334a88c3281fdb5a23cdb7ba4f9cd266eaa71c808d9f4225a17262462d4f7f18b9cb159905d19b9e4c4df6321012d7d9bfcd45720bce3377c6cfe 0xdb0e9aaf1c1090b6c7cf7f7d1afd852641aa759216ff23e10a7da022be579c61b03e74aa6f13c42b6a13273068fbe89a7a75176a16998af9a2bee094232a7f01fc 0x13736008cb1b69015da190281bb2ab23f7eb9d65432035fdd1e6e90c4f990070d7567aefd6a14f250ee83a7bd03f70950d025f3aadc987b2c42483b1f8c6d9ebcad 0x9e9048a58ed0390c475deacfe1314f81b28775c826c55e6acef773d502517b40fa6046b01f11a823757877bb56779b5e7a505da55442aee090739ccfe6024caede 0x0 (-0x269c1d656f5bfcc62f24267a44dea7d309f2551175b2da752fecda6267bd213a28d20aac98fdfd1d737068874af8c740669bb6248fce0d84c3cd1005684d4eacbab) 0x15d95f3ca9d5464e02c06a7172100fb4df7de823166a634bf4ef90867f544388bb1f63fd647b01d09f9e3617e809e70cb6b78d9166139df24ff0d964e729b9f17ac 0x8305b910eec41e9e59e558c5f41d114e6b1a8723c6355398a2df11ae30215aeb741c935f03dfb703cb1ed44035c351bd43e39a10768065891cc5c92c97322e65c4;
Dbl 0x10ba828ffaf9faf3ee9b551bff6d2d0276e88bafe84a578a431d270e11bb11f25577e7b2431b1a503bef22ecfa6cc8386f52b42d3df976aaa2ff39fa66dc84a549c 0xbf3741fbf0e3301a57f372e7c8605c7eb33bea41715157464bd75e5cd7ef66bec135962ff9b28f625a400bb7948b895a513315375ed6dc2acd80d935b163b7a2cc 0xbaf444a8f03048cd5960f0dd9c45bac3045852497b5ee68672a27efd8b3b9cda73ea60089b0dd9b47f4e170981fa93c1eacaf6355ef89ed74aa5388110d0c6184b 0x1bd758b32b2d609c6fdc0c95529d28a78e6e8b50a5adcc9abea641c5e66835a2ef08de7a756134c90fd31b78d4705f4029420232b7c2aeced53e075e71c6c75f30 0x0 0x2c36c39f0a1ac3860212d29d73d1600ff58c9afe8d01d7b8f13844be09248bd2fd5c3fa8d3bd2f04c68ea674d739abdedee9f2ccc4c39dca0a9b3e7ab9ced85555 0x8bec19fd973f3fb23eb8ba09929bea377e1adc5ed49d0e19a6b512d0587f53531dde68ecf3632c9e23852f5ac7dc385369e1288a8f1a4965012b17c756f28ee7b4 0xe8df1a54409cb19a3d00d6c82c364d811dc623d0a28477444623474ad4dc16726f1ee902ef6f599b3109518ae9ac46cea11eab09cba314500ec5cde9fadcb13b8;
Dbl 0x11d89968b874ff40b983379552b9d199d0599b9e30246a718e9365554c117dc869d24bde6d5a5f1f67bd785076e98be54d975bb8dccd75b3440474de477f815028c 0x17b6c9fc83a312cf1b22303a74aa9f860510f6b7e135d34945f93e7ba310bb0014b07c606090fdc6abf113aff43e3efadc21957a0f1199b1007d15ea6b41f8670ab 0xc51b5b37298c5aec392e9968feca09bde30972ac415c249069a4e70ee39ed93d5ff83b4cb8c36eaf74bffcd55147339a1aef0d3bc16e7ac7bf5588cca5e501aaa7 0x143caa233b6b20328a5d06f407db6641e622c7ec35df422b1ec4376a2a6e3b6bd762dd029f0a2b2f79b2ed0b850a799ac8f19bd966dbd411ac5af7a8efd44313220 0x1 (-0x5b6d57b3395de578e9383e1ea837f46420027dbd03638d14bbb88892a61469b1d58c810e41a909c88c3a72b8d22f0a2328bcce158d27966154d8c45beefcd465b) 0x9f3dd192929353c977d0c547ee572f95e1f5542efd98274435db1f608ccb227ed8c453333b6fdd555055d58fd58bee934ef912da2574947177a25e9d463bf739b3 0xb4934e36caa326d2c8fc1f5bf8adcea5e397b05c4d64493ba5a5534844aa709e55ddf090ad1ab2c84305ae08cd5a4493a3b5692067fbcf17d282a41334ebdc1972;
Dbl 0x15546f961e0dc1b9af606338842c3404c0ae97b0f733aea941be3ef42c3fd6351c1eebadd86bdff297acb18ef69ac16f552231a445dffd84b0f20ca11d01c2d85f5 0x6e6d4f07bead159399ab02366c6c45e7a913c8f57c561527159240526b0a84396f3dc6f7cb60fb46a7845ad5524e6e393a22eb6b422ba58ff0671757a6e2adfecb 0x12d53c3d41ab0f7ee725ba2e46a2816dfc17d693bb1f6e0fe71363b41d10c20eb5722764fab21d28bc8c3390ff156806eda946b2efb3f45aaa4f69fdd7f07f6e883 0x10cff50c07b84175e18780170de3db278a7fba28897071f6d4a01a767c6012bc7dbc9ff0e3daee124178ce029f195817487f66c35aeedf580176a474f0d3cd871e0 0x0 (-0x244c420ccb5d09cced045f0ba148e7ada15a08ae33294da749a75b3ed938c396322f772f9634dffcb37c5ae51b12eec1d92ffbf03b940a07fd18fec53b3eb69f2fe) 0xe37b14060ac073612316ae212a9746deb5bfdcd92c8bfda7d62ef8f17fba2f56bd9affd0650f63e44f337a9f30138363278ff5c8981ce349098a526f892b8063a8 0xb34d5535d3dc1cb24a9b30d92405ad30707d37bf80da83ce3b7f995f5d359220bd333fcfd579ca166c90a5a403b77f1c9274c3c245053abda487b05d5cba4a37ca;
Dbl 0x1331c73739d869e5e1752705762ff5a492982133b62da9b754f45c9a85f136f8a560ef98b17809a2951da23220ad2a5ccce6ca7460b0a2135297d8ab0f0ded1c00d 0xa80737c4915fa47594b61112afdce85031e0b251e91dbd92645eab172754fb8d2bcc6a8090f946ebe8d1a1d85337ea884d7b35c4f9faf6322c2d7eaa1c6884ce1 0x625c82140239171e0540cba346808848757c20e7c66689dd2188a1ebb5e139dc10f57bde1f7b4de5d34815d67fb199e3eb83078cb7e48dca691973c88b40260e22 0x63ecdb8b75971b4c405fa125416e7762a5f5bdd05dc4394def4c55a0f89534809c81004fc25166d7e8f740b7cd1aef90b54b380ef28bf62ccda43f6d051c25b1ea 0x0 0x12209c302eaf0df868cba8e4fcc1ae82a074971a2bd8d53f323eff8091fcac12476bb771f1b0d3fa1f9f9f67022419bfa463cc7d7d5e69f3d1c9a77e34a5222419a 0xb836a00860963483155705006250ada9a32b846368e308eabadc57b07ad16ed511ea0fe0e2b4baff410f34a3fd5175478268c39b48bf567826ddb82c9dda96c9ce 0x3bf01320646413163eaf4d78a104b273e6500f578962efdb0d3d5b90b765697ee2f6f6ed31d152c499515c8f36e8f32fffaef42df041749e4b3fb6f13c68b96dc3;
Dbl 0xf44d1bd3b67d27b12ebef0064869426a23113a23dbe4eca402d5895366d51644c8e835777fd9b1aac20616bfc44a33f804d884b8c80ff606236cbd41d7eecfc890 0xd9b50605148db71e6a6db21156f30b4a34f871b4be31d0c279bd809261053d38c23dfcbf3265052d62b7c218f8c854c83d5edc9b962faa9f8a922f12dd4e187fff 0x13942d11fe6279c3eb91aebd73874a2379ce176d6c30d1a66e58a5c34867150a93dd5e9631fda672398c035a514aa3f520fdf89cac0a0bae827a08ce4a86bedc91d 0x130cb6d7734884328eeddaeffd40ac33ace25997060600b16ac886a1f11701280107ec9e8d6aa8f415bd558048c6b29e04778d6c0b97004c39830a8d7c4786fcce1 0x1 0x5d385e493314b5879b9b4638a9a71dd7324e02b0295980f12c71e5163885dc881c0bb214b2d12a50d9347c38db40da1e9fdf745a98a159b32e8242c1adc2921300 0x74918a22aa2059442e3b8bfbb56be71683819719158d0aa46b545fd1e80ecd821a1440131c023799e2ffebdc39c7d9cbebc2c946a994cc80ffef9be4af2527c8c1 0x916ed95388348d998374884447febf36abc7b7200adee4a3a3ddd8eb82a13496d04c5b28949c18d9293f52366f4c30db6a1cf4d23313c0ff809b994bc1bd31d0af;
Dbl 0x108e173074b3b633c76958d4dce094996190dac48c9cf00b103fcbfd8b2c9f43a25a59360e9927044ea772a1697abb4d6254a4a5d7fc37844125b3de55609e3c60d 0xa5bcc326fb5794804865464d9af321417752a9d3e6a9f7938bde43e882042e0a581c69ed050e7ea14583b450378a19ca74f94f82b681092c0a033349762383e65 0x19b77765db5db4d13e7e6536f3a04ec7d73c9c221be810f94125b57aa066e80a43fed13fdfdbe7e139e9ef1925c7fd9a9d83b927db46e7259147714afcab958f657 0xcf5939d2a4d83dd665e75dac7d43d9361d8347177fc7314940ff9c53d8e4fa581cbc362062141d434e5f86d3f54fb32b960f47a36ac79a0cc9f1fbde45ebe0419a 0x0 0x2e6a31d372f5187306e575f6befcd1b9a6f80ef6dea032749ef1ef6176bc0309b4aab6ea4d4ca6ed0c01ae3afb723be8b015d36dc7098f19adb5987e776ebfb70e 0x8908e1e538d6246ed9b0400c035588985d861378e2acec6ac7898953e813b83186bd823b7c82ccfd15b7d3683fd03f2572d11cf1d3a47b600bfea13900402321ba 0x6b454f1c04bdaa424e30635915199169932713c53d2de7769d233b4e8a9bdee455d0645881e70ab17988a365732c3530413e40c737b68e54993aeb609222984ea2;
Dbl 0x5d0565f2e64159736d133b63fae25bb1e1b76e978ebb3911cbd4dac6dc19396432bbdf18819fad973e2c067840b97ddd0214e4dcc5762f8883e8606af8b3320ccc 0x150e0b405b2366d78c2b23e4bf34332001bd68e806e86eedc55f7e62f98266b665e404e04a59814155ed50b855643275c4542cd01b9cc9e506586dd8f04def62f7a 0x13bafca001ca78c763de13f4517899d5d65e0897a3e947e953b053a8be5693cdc677d8dc831523a4f90c0ba5325475d05d10c209647ce72d176e4c1160d49d6c3b 0xb97b182cbd7f0bcf41d41618e66c0013fb9e9c1ccfe3b09ce2c5fe0eeff9d77a4741789a2ab8d3d4b5832fbfad357a40620cc7f6719b72425b1955a59283420eea 0x1 0x94e21fe3c66b6c5f1ef18a36105e7b072c239bdd7394e445cf89d5976866bac393870c13881f635da24d06b389720a0650d3c7fe9b8cada1c1cf6bed8e6d5278e0 0x10e67617cfb104d9877ef5ce27a36c690ff11af6f57ee7787f5fd985e44aec4b4348118837df60b825ad3c592adf9e6f98c1c810cc1b019a624d4335455b12e9b4 0x21b2d086a3b8a64e4507a42f44260cb62aa399ca6f4c07e9bcf7aaec5c4ffd16f93b983c4f4714b0194c7b282aefd7a6351805c3e14d927293bf0dc83f54eb881a;
Dbl 0x1e1ae1a3abf2518f0f33cfe9c71067ea0e5792b131811fe174215dc1c7fd21f2691d2340ff17144b9ca4967946995d436cdc16e7f7f44158e6de8c67b49a17aefbc 0x9a115847e5f88dab879ff44366cb4916acdd952c85824e60fa321822dc0b7dc6188388dbe9596636bca655b42720a124ad31714c1163b81248002b6d63dca9409 0xe20dae5d50626fb1fdf351df8b9613a79ec23548f5243e639596dac31fd5710224856126d0e88d93fc43123414977819487a7196f7ea2a20a41eaf3d400aed0c43 0x1473f9e8133d6e49e0a383f07bcd67d6eb108b52da62ec9f64654c4ad6a65b389fcb81576e7027db1f30aa62a13d11d49fa6fb5ecf8b662cf4106dad82ea12b9b71 0x0 (-0x273d62ce9ddaea29ca5508c1b125f65c7a9ba1acd4fc9b4dcab6bfdaf922525b78115d9d976e4e07a6453068f2943dcc18ed3556aee3119118fec425a54f7b70e3f) 0x1c527da7c366a9d3b07173d702de44b3c5e65a2ac08054b147749f6bb1079db7311af49eb3699849822231a2708a7fe43dc13f9e0f53006f8ce56969714240660ed 0x133de8bcb068975be17282efa804a2744d632f5c3e585b8f54eaa20e98aaa76d23fbbb5ae3d127d9a1d82d5b84bcd889e8a99d77bd0684167e250572a27a88bd282;
Dbl 0x67c950e341c1d0567fef7fbe9b7a554eacbcb07fdcfb6040a846c285666cc6c82e42f057c20f4529abf3ceb11e05f30c50f2cff5d57e8e2f4f04db39b7cfdb98d0 0x10b206bd41d26e6f2c099847f1b327c510fa466fa2bb4584d2030468f94689baa9101eb99642e847be3d0e8f1cf682ad865b52279ac0e5cf6e90fd02a81c0326cda 0x1de35030bb2702bb900c83c5fb3208fbf53eb5a269ece6efd3235ad7383d4a03368edf33e226185a74f4987100779ecbe3314c757b9af6c7e868a04fd93ba3011f2 0xfe80a9b06138a1e7f7e07ac51b3a38405b2972589ca3cc98ef72daf299581c31d0864cf45a6711e787f97c697309df39e51df49b1507de8a3b70328c547d98272e 0x1 0x5b1a3003504618015cf57f1991d9b5b55de13c98eccd9ba1c00e542e1809f5f30fd8dc3b5b0ede62bc4eab665caebb3300c1dc4170f19c88e994f263762505bc10 0x1509ceb37eab056ac9cc936322f8bb8820cc958e854f00ffe638a7e18e80bc0dab06284ac9ff86cae1f9fb285eb7177d054de8c3b57c6f6bc97d2fa14f0cafebec 0x3396f3daaa8b86cbcd4ef492c2d4e8c7de94f11d705bb0128cf0f7bbd2b7e24abf47684a9ba3323b2e788b133b173a82945940f3caddd8ae3639a352e1abdff8d5;
Dbl 0x71e045303dcb1b4adade11a62d6d26c83c5aac45365feeaaa71506b989a9822057c6189d1062272b1d52979e8c5b142df260095622566267b44f35b8c3023b29a1 0x4939e15bfe11a2d00adf0fb213831177f261fbd11cfeda1c18b7640965ab9c03986d80a56d687f88a6fc78790eaa1b4ed6005bcab58cf9605c809dc9ec3ecc9997 0x441ad9a2f4e806abf29c1158d8cd2760d03a2196f39f2bcbc8205a0236cd1dda49445c8adda59468e20267252d7efa3c260fa7f405ffe6220305d1b9cec407557a 0xc1e68a781f154422b5ba74cd07af6ad91d426b290eb57e310778e2862ebcffa6f8946af3f6c604f33cd47078c0be0f898fb4c6aef68163968c8f3260958165d343 0x0 (-0xcd62a19227b1bfe7258d093a0c4c5d32a883b36d7ee1dd8a31cbd81734ab37bf8d52333ae208f5e2d6ab2fbe5fa0be1ac0d70207aace60d0a1367d53d28970197b) 0x1953e0c6ded63df748010933abd0ef5ae6fa3728f832c2c02f0712583d43d8f4c47d8095325f9ca99d0ca2ff4e67b9bc8e34171cb07e44ddd49396495704367c0a 0x2b20509fee16d907f7cf30400d901e2c71aea6eda2990f04cfa854324ac50ced3350f5abb3757614ed81778fc27d74d8609a72ea9cd1254c91d7f1557b97e6cf49;
Dbl 0x178c9cc102daf44fef4f8a94fb5489e2d2b6489b6ea7f5da42c56d979f97426f70d3bf09471c148110f5bb528ae7f02f75976ad655b07411ec51747a2e8716a98a7 0x195c95ecb64949930d515d98f56dfd71053cdf3981d7b2c78cf8d432e48a7e4d4a30f1f8cd585b059a3253c72a37ef07316550f2515bf8056ba97f22a4110c355dc 0xc18db637dd3c5535443e0d62a390755f2b901506c4e0ab51a6b7f17d307f8c1bd4d35bba9b2e9e7eaee2cfaef127a245408603f848f66ecebed5e23bcd4b7d613e 0xb3708290997d099f35c93622bca33a679e940838ff83ada3492a20db1d03b72ef55e611897e2cf2f03d73c066b2b2adbbfab4ca59fcd7909a1e8ab9fab2e0943ba 0x1 0x44d2079b0789d5bb38a18eb5c763f16113aeaecb3f57d5fd565fc45d31cd83948f09877e759b635dc499ef99036ec2e324ae135ca080b9b47e976405c1e64f2004 0x11548b340cd2230de2dfe962ffcf37b8e0d09f16f0c9fd44ec65557e1610b5766a8e76e11cac5b12580a076d2653a9b5a9e4109d9a71fd3ef463de46c435b09cc19 0x840d5911f20896f0722acf69df27fa69efab6aa0e9c1b7ba433bd1ffde22500f3a3e643f1d59b03372ef035b99457cab9349a90656ae6ee3656ce6ee50623f1862;
Dbl 0x11de253391cba87f3a167f39b2c3d8cb0bdb82c9d84089b5cb01b53de9910ce7efd729b7b1ca19581d86cdbd9f873e93ef43d1cb9221877f831ec6615f0bdbe4668 0x10784d999349f26170eace6716e7d105c2959b7c4e2a7b458e7065bf2f94c37cde0cd82a50a3825dcb4254ff069fe1c7d978890ceb33f3120389ebd0a79e09d583b 0x1fa0523796c02b816ad0f1014d65cb8447650d31ad60d6c3787b93e533eb59c54902b97216d594552ea0ec1c4d2b9ef7822203303d30d4fb693dca7480bfaada7a3 0x8e4485322ff57319c668f31de862c6b42a743bd33ad3781fe886e73b4f5bad06c2419ce7cb4d8a7ceeffec823980d3f57ecc7e5662804f3681f9351fc73025fda1 0x0 (-0x2ecac449d21227b4b83636d8268f60217b3904055b92449cddac7e139884581b9af59677ef8898247f54b72e58f8513d7e0dc9782846d1c016ee7f62f898d396b33) 0x9fa0dab21aee10b5a0fe25600422331377290d2a42765e36de778a75118dcbfb1ae01bfe181e42f3c5b9662d479c952960265aca3322b1f2e86acdca99dc66f9b3 0x4f700783350d56ba2da63778fb232de879a7a47cb2c499f5b0325661cbc12d7029e6a02666995f3ff6a83b862ef6feb1784e2d31a1873bce088e505f6138e3f979;
Dbl 0x18f0b491a522163701357366ddbb2c22e9ad1dbfde73fb9c8e070c3231f89ce920de0640d6d472d6c3a06c9d3133815b655bd7e17ce89b828fc2f4264c188ab68a5 0x1d54b0397567350001a33c474c9dff1687ec49c1b77d8c7ff3cd04ae2693d8c8e861d98dae9e778d2dd06c2f1f39775eeefe67d27e0e3d2342c186535555b9bbe35 0x18354d2132d53e3859ff467f9e0828ce8b572905d530194561fd2804385895c898b9c1f15cf370d149042f9b07d713a5bf0e8bb7a25ec01b5d13a01b07dfe70659c 0x13239d601de2bd616f47921fca49d1ef3aa951ba96aceec59aa361110900eab3f5aafe9ca2050ad09d71e8cfe7666a68ea7a213a6d25b5eec0c8657d52485019a05 0x1 0x17de0f6f365ef36d260960a9206a71fb708a69bc581d42e56211ee34f042224130f0a63372a4c5cf4bf9110bcf483a64e3e9da05bcee2fcf20d3c1b1fa8648350aa 0x13702172fb4939430dde18581b07945d3aa4ca7f021b45ae2df41914c26fa0b2c6015110278f40a6e99b19556b5f3117acdc5207f628d39b1e185a0078ad5a1f452 0xeeaad23d8abfcd0754101e6a172c71d902399bde42cdeca8a67be7e9674eb612856bf8d05a499780842360bc5c79232455e800147063f5dcbe84befe4e0f2cc006;
Dbl 0x17fd736e0efbfc94ef674262e0b665709c05e635a99db699ab3dfa4e4d68a2d4e6809d37502cd81b51f70f711c0eabc018931a7e9799d488909501e9434a5b94090 0x1a77459318ad4fb7104a5aa5a26df8943fa2e6143261d598a8f83f0033e00c25b902b6aa7d5dfa5d292a1e5e2dda59b4649de4d2e1042123a0a62e30f146b33442d 0x1dd48a9b12fb9a3c2f432d26729b42f317f7612f0c7a818de0f02e51486ca5387c63e87b5ab993051e2593a7030f886327047a2d5950d232f5d53ed625bd67084d6 0x2dd6aa65cb9e548f158e1a1aa300682484963ad851bb6e74ad4c5adf2b3cca32f5f22e331407d3004a64dd0f15f1daa8a6082ff9d0a1bffa21b5822640f0687a08 0x0 (-0x2c5b0642614084c188386ede4900b04316a4273e1224d3956d6793700587ca2f68f18628d938ae75150be187f817896f05deb5170535783fb08d398ca41b6362a98) 0x11fc2d591237b1da3e0936286d28fa9d878e489a7a5e0b4078822ab46994e78f11eb7775cf5647d1eda8b71eb1838904d1d0805fef130de6e0b80bc6bf722026f97 0x225d59057aea1a654014c379e32540da147a7c05f10c281fac2486b2b568d62b4615940d8f97d6c252d19d8966dfc9fd056d37060e07c2024c6292d67123d245f2;
Dbl 0x45419dfddf62a1ef8036b6c0b99b2e3f6d051a42d313dec3a737ed290f4e81d3e0cd5971324b3eb8a533fff73d0c91730053b00063b5cca028ac7b754a74eedbc2 0x1bf21b5d1d2a79f133433dd2d7c57c66fb1d202d44a6b461ae18d4fc46a291bffe1b97c831168af442a930bd6a8c208b86b542445a99bb8ab7a549238eb310bea8 0x1706181d1c0c3f593726cbbd15fb9c12355f4d713a358e5f39859ccfea158910f9af8111ac33af62c904e1b01fa9711ab88904b8dcd7eff1bd499343aa32ee37543 0x18b823dd46daa817fd1626c874f1a0cdcff114115e176a528e16b1b06f75e309b920fd2dfa4c91ade4ff8b52573197abac3290ae9b5a856af52bd99eb85b8228585 0x0 (-0x3998ba1b549f200e829eef8b5e404e328b1b214e5325b0e981d5f246d99353742e2c13120e8028ea877eb67654f380c91cc08aeb9d4d69249b49f31d688e575a8a0) 0x95e37fe3b6bfd91ce9eb6896eb30ff803cb177c8be72b8a992b7b8fcdf924fbf759dd3b3c94d86cecb4c79725fd8612e724f2ae6b76ee58ce6a438b8a6019c7fe 0x357fbd6986a002a5761d4589b9be95c4e7b361ffeaa5fd3d591d1ded7ae8be1d9d9e5bcf80bacc85f1122867f458daf1b08873f09765b2c997805987198d4c044f;
Dbl 0x13005e8d0a9152378b4c298f55c6b416dbbcc136c88068cfbe7cc336315e8721833bb8c037c885a8f51c5ccc533182a190fc2b8bbe0eb20ddcc5bc724df65b175b3 0x126210062c6f562966f4563149ac91e387483b4bfdc11b9bc843fac6dda40232da36f409f1ab5785cc1dd379bc14e44b8194f83dbe481d469420bc2fc66a6a08edb 0x15d328f44c85ab9dd685e47618fc4abe2b711b368fbfcb7c955eae07417006a2a90af6dcdf5ac5716273a8c05a315dd9859800f66bcd97162856a00191e9548d9c4 0xf5d11afa5635175ac3fddabe3cfc5e2e86996b6d6894faa529d9288e6c626e925aac57291661129780cbf921a93ddbd36d65be687617e72175998627280c702fcc 0x1 0x1b0e8d8f92981823c5c72f471c1f1d94919c7785b98cb6afef3eb848059891a4ef1e8336b547e164ff5c273d5487553a88dbb0ca7e066edb0f19c9cfd6d790e310b 0xb48704893eb9d5cdc92b489dadf53702fcad5c8d31e0f76af4aa7da4d2e95b0a524fe593bf1b4091d9ef2e49a31c9dfa196bb606260395004adb605bc6d71ef102 0x91f6fe5654fb6da8aec4b1a519df23c25a006319b7a09165196308a932a6c91a3601bd428236cf37edfaf28247d75de7565b885cc13193ca5c32e275f143d6a763;
Dbl 0xabd5d13402e44f165dbce42ec71a823c35661a6f8416c9387297005e46c2f7390543cd7efbb1d05dd1d20955267da6e1ed65f2b982473fb5588cb69e74a65e6d7b 0x9efd040d70efbd1643e56b681221c9fe02c0471119d1d9cb6c2d31fb344abae1767ba1ab90144aaaaa96b382333ed8d9dbadb09d590905b6a77ac007ad8451ad30 0x6f9ba4e55bc486fbdacc1072285c271f62302ca446735bc119c340fe70c7e0205d982a2eef0ea035607dfd1527c6e955307a77c8f2834de3ad91c517c02975af75 0x8723fc555605a5802b5ff7ac88a7543a71c36daec23fdff118127a72a5f5684c2cf39ef38aa12db2174684198e0f6bde3da1d33e8b78ceb29a9102f4b9224ee1ab 0x0 (-0x110834b94986f368543f105cdad9fa08f9ffbb67811a2fb921b111c6fb7c583d33fec804d836b54c80b5e6aa9416f4f736805dd0571f04fde5d5c5abe9ce8fb1c50) 0x39abac08a3afe46eb92eac1403714604aa80361b67393008467e1caf7c6cd79ae75238132a11195c4884416f57602de716d760f7f8c2814e159e8c5c32b86cd1cd 0x2d5af476e4a7094a5aff74be0866a9d62f2f8eed43e15408050d8797e80e4335e924090e0aa595a1e2cf5e4b67f27b268b55ddd05237175414f6553d87edf84d10;
Dbl 0x1331e3cf2969f0e792c116be15a8e91ef933cefa2e1b422005a91d3a8462710894a5224407893c94b449478f74bd4042af9cff7ed655030551e17e14e806768eebe 0x1091b7950b1017f537be75fa17db760bafd025696a8f15340dde72e39c509d704df4f6122d91a42e212a059ed07d5fddaa18a138da8dbd9bd8f6a00d57da5e6776f 0x1039299466aad414479df376cfca4f572de331cef2678e129b2b4e902c3d1b40c405b890eecf3ddf2c66f3e98aec4b96ea10b95f25a8df112a21e1af3bd3f72ec2f 0x195e18abcbfee3dc2c7fe0bc6946a694305bdf07a70e0868a8e4603c16f40e3dc972c4088b6fa07c897f659952b68daff3a239d0fb02d2bf91810bf322fde6b35c0 0x1 (-0xe371b0bc9aec16b4582f14aad718b1949aa035f9e548ecff4f38978c96779178a1cdf8b5fcd9538d85b8542decf59ed5736ad6a85e61efa0315b89b89696042af) 0xb838c4e0164fb33cd81b872e1f3fb316c4938728fb3900e4ccc28bf3602bc07ab2ebdc7c78c1a2fe56ee90f9ae98a1146c220650b49325e9910d54c3b8f183fccb 0xf376b5380b68755ba78c9b5048d038d9e4a60483026f90fe7f1bd561aacfa7d5e7b9634f3387ce590d83ca60d624073232cfc18aab012923c17da56d00935e3724;
Dbl 0x848c1a879d71778a4be9329c8aa16895c78adaa5c45e77f7f3148eafc24a7cd50e12f223f85aa9cd28a2663a08d7581e271ebdb6a123f913c390a034e2d3805b1 0x432ea000e98acdd480aadaabc9d63d4d3828cfd8ba871586ad6e4b2ca633ae77e04858d6576e5a7464690f3b49b249829ee218a649cae5dc4c36252c7bd5a6eac2 0xeec33efef71af6493aac364502001a15ec4e64c9930aa813f9d96b7452c4dd6260bf7d435a49793faca0abe10eadbb3a6dd6ad676ea045363fbb0525eeaa905e22 0xc5ecd94fc776b17efb3c84f5b3e1236dc4d986bdee6a3dba3078e30d1ed6288cff07084c81abe86dae374ab1be23b45802a7fae75f10f3e14333dba901d03f8cad 0x0 (-0x193687bc826033f40b2a890c51b6cadbc663756c140b36545561f85ab970ae9e8fef0555ec11b3a856c620e1d247b72ab96c5c91593950843dfff2ae69e592f489e) 0x2250640470b88599ec2a06b94cb71571a2258d2e9a8bb33f1c21011d19b1f852ad476689ce862dfbab27880c2a610f35352c80ec167cc29ae0107b5869e3753f 0x333d390b71167b8053c3ecbc34148524682b1334b5ba26e904adea6dc8d61ba996ef3ed4b374b9d9a43533f34262e276a599bfcf1a3e1824d342d9902817ba5b4;
Dbl 0xe4978c66bfa9bdeac95fcef485deb45f00e7f290a2cda070039a1d0b457bc4fec148546fa0d67010b9192bbbbfb30dd0c6e43553d52f7e653869ddf144a151285 0x5fe30b69d5b0c7bf4ff17524eda2c5499d3970525c605bafbeccc6f2d82bd9dc24683618323876fe584aad945457cc7e25d9d0b49a9c9593769aecae2d6a3cf15f 0x100e5cd61ea95515dba65a3d815c03a1d45a57a7f289dece9a913cfab6bbc02777655ac89ee9e08a89c15b655b27a1fff6d37159fb3b4fb97b3a71532adb5d073b0 0x1e34b949713da061530b96586dc3378039aef5f865e26b9d6eea18439ce07d49bbbe022be2535e3760c1e61a6f55a7d04790847f1af2e5048d59b387e4e6b69f962 0x1 (-0xd1ef49a106611c4550145dfc1236af67f599ca33eaaa5a6e44a1bb4e1a401f5e24eedf22d1764fcff2900834f635264c19f13de65eeabc7f23841fbac4434e64b) 0x660f25e6f9ce7fb39a138a79cd7f2ba24e16f58d740154364b5e5a9a1a0543f6a72bd7e704973e6e1106856bb03e606a9d6fa41abbf505e8b5163bec2661cdca 0xd7c6b57d410046aebacb9bc0781488e584afde8c489c247d534a9d63168120a92e1ea10e4534e778bfdfe670310738cb9f919aa28044e74ebcbc5eae155bf5de8;
Dbl 0x9ea09c9fecd2addf79f353b0b98c040f4b8780e089c37a860dca1868cab8c72cd1da5fbc49fd4640e157467e4b79e7c8116da5ef0c39c99e256921cc50cc251355 0xf0dd0e9acefe0231ae1a4037a85924fde924c67ff96bea8f5a19d2becf5a1469b5eb5fb1860b2f8b7a348b163455939fefdfe2b3ed599694f364107659d44e9b1c 0x949c74537f5f10a7c1b63e677ac4db540a9824b4980193d5b11dac8246b3a773f0a51323391f4373f1e8729cc405b38a1c3ccc49c67e4a80a65b3f06a237cee8e6 0x16f05fccf06b2c58da1d734ed4549a04bb414a9d262f4712064b2f43408d1c5726e7cd666ac2d4772de16227e200238de35f9ee00ad42fefe8336dc37d395ee5642 0x1 0x694f8fcea1519cd2131f72d14ee9ef3d5451376e9b2ddf37dd5cd2a0a7b96ad51f2a5961b2329905c0564a9bac6cd6673c1ca252ad62e32b986abc8c667ddb10e0 0x3125530cc807b140ff4920d346e34f8e643240e2d112b58361b9adcc6fefbbc87360fb21b317f5ce9ccf26039736ba24a3cf70f8ecff574f089339296698c0c3a1 0x71b5fb295aea21c9545c8b46ca2e00fc24929406d966def09cc29f9fc2572809248d72e451dc9e4507000418b0f729088eda6d59c0e2751928ce48d71f658bd2ac;
Dbl 0x2d36fe39f959f7b60a696ab8093a3fe083c9fdfe3c313f373735f117697386f5324566e67250d56c0f7521f3c34a327818e38c80c3dc1687ad143e45f3293b4ef9 0xef9199963d85e5a5027fbf9d741f53ee3c3647f3a92ef2fff0aefdcd39fc6d9e13f9c47b69a4c8d8fe23a9cf666fd3dbde5ad3cc9408dc8719c773faacbc875bae 0x160074d3c36ddb76ffa3e0b7a845f2f8052e5eb2de9568801daf8a2e9b101e1de48a9c1a33e62711d4ba828f5beaeabb8b1a5892671f086fdf5191173743ad5b178 0x14b750491781c8cab9a809a3439d10facee7e8c503cf78f696ad4f1955da6cba1f19b361c6666b27c10e146cde5bfc411850ee75950ba0dd99c9c7bad17c73f6e 0x0 (-0x139af6a5ea056b21ca5962407b03dbb83a54a41a9a4ae65cfdfc3231ee7f5d998c4c0d4f663a40899f7a83053c2269a2df5f19eef8752fd77b40d660aabe350763f) 0x3fe30984f4af57d0279919aec0f17de01f3caffea8fff3b325b13d7a40adf9bf01e8e6b7e9324d33033c868250a36592a04ba14f4f6741e34212ab3a12401e3b5 0x1d4562d2d99e0114cb61fc12600973be434f886024fe67d124199e7f712f4b09cea3851cf2abfdd835075aed2752686b78a36662bf325118fddc31fd602a6460;
Dbl 0x128375cffb67435dfbd78aca75712a80cf9fd4ab2a7a9b0698e9ac7a974456ba2df110dded5cf389e5f0698956548fcb5914373ff442d737f974f3c02209bfbea31 0xc21ccfbf17e32a93cbd0ac2f8d6daf7c23b6f992cc8ceb431338b4cfe4a4005eea889980bf73d92d11512e973ed3e0c2706ca52cc16b7fb4901036eb9b66fd07ca 0x14db813b03625350cfe1fda62beccb07fe9f3b73e7d4d98b5d25e6b77f9a1237f4efc1de8b8cf39fbc25d0297697512873e82d7171595a72af7bd9d6f12f508cca 0x2d74c9d725a2bb1136af136de6b1a472187f4e60dca207bcdd7648fd55586d3f29712afaaa30efabecd27b38279bf3196dee2e9fd29d5cd289b73d0f11558a53e4 0x0 0x470acb60aa7ac37585aed5222c50785934740904413d400b30408ca366d41a6e601dad690c1312edbffe552b401d5cd2266afa94ec29fb13c974ff501da77e2ed9 0xab60098436caf68a884807312da23eb88d86192f71fc7e9740c74c3f464d040ecfd51ca485bec577359ef96ff4741408f8de55149ac614bfbe4c788b3877b821c5 0x1a4c6efdc080a38931543b1d5f63ca681edf36c1d6d0d25b73da65e50e1a7fe63aeefce48f2b2c72bc2c8ef7fdb971735ed4cf318968db492ca249abf84d71c79e;
Dbl 0x1918c5e175d93c7debcbb989a066e702ed7d1d2ea1cc6b54c7fb8ea42628d39ee102a94e30c0a89b737e779e1f5660062747c3ade87f205cc811ec8fe828fdeca3d 0x121f4c192733b78b68630d237734773f03e5f120b9b395007e72d5b3996199d74a880f1c283ec7fe6d279231083582efb03daae850de7a00aac904f2d4bdf9314e0 0x1db8c25790694a0a7f13609b0aaa56238218f52196aac8070691057771e4f3a8c01e83501b8cda10d951130380e83254171ae7afb5140e2bdf0f103ff6dfa8b51f0 0x1a0280e2ca4a7b1dd459fd9f81a263b8be557e78731539b3b2c0b59964e8a62ea4207a7be3b8759463ed80b86bb7bb1c76c91f6a7b383dfa9e37fe7be4f8769f2e9 0x1 (-0xbc104006fa853e2608651647c9a24f17c17bf448b090d0908d9a037787ee0e407f8f183d52eae5c272168a5500b2ecdfc018640e865a0d8f2562ee3b056c67de1b) 0x13aec85de1fa63e52703629340cae52163372e31e9d6530f5bbf43220963ebb0d61edc88518dd05b8460e4e84a2d0a5614aab9aa2d630a40ebbdcfbeabb25fcd1eb 0x1466176882fa0966c68ba4452dfc90c596eccde4ffa4fd6969a2384687d81981cb24de647ac2b4783baf37e04a2fe6c4e07020e37bcbd24fed4aa0697af7ee32335;
Dbl 0x1e393142ad2db8174b0e5b2fd814cd3c6cd87d7836f0e568a602506a5ae1ee77a9cae2cc7a72e29d725d8129a4f3dfdf4184ebe393966af661b74c1e58579074851 0xb87a3621e4b70e8cb28bb1876d90e34ca9c75f44e793ba8d141d21ea95dd708c8e68d77e3537fee05aa6f7fb639c0cd13a7266ed21f0d3b65ce2445c75cb0284f6 0x39dc2bd296583f0f135ab784f60a295ae2d7569d95a6fa426fa73dd94cb908c753a8e3236ac19f70a91800038b6a67f72c34b8bcf2fadb22390fb7c958e1d0f420 0x697a8b708e846a29d3a520b005b690a39497b2c6b3a5957ad310394f003c2ce81a181a444eb4810677d22b151fbc2229c9684797ebf6cc544fae0ad0d614908fea 0x0 0x195aad70e04f464c53c725fafac07645c9036c302ce8337b7678d3a696d4381a3d0699e0019e6093a134bf73f25d8644c1dcaeab10188bee1dcbcc83f636b7a721d 0x1c8ba294ce136955894b9bdde22db876f1f6964ddc18f1523d2a0c11846cd977fc945c7f74a3ca59603364e76632d5d0be1ce1b5a202974d7fd8e96c651ef4d0515 0x639f6761533326bf069d0ca6da32c43302a967b49c57010ac57b1bb4af802fce987cde6f4808a14cd85147af8bdf611683cf6ba4dac93e7f8177bf84b628beed06;
Dbl 0x1a24df2d50e17901bca3001a2973f0c50a678596220dfec0a9b9c1e16f570afdee3a1468ae30d828543dce51da0dd0ab50d1802f1bc65488f0f5c8d939d91ffa425 0x8e11f633c1c61dd54a0e9480cce3e2cbb0b248675461520fa513340a26930d81ca20a0d4e63f9c7982178120864c799cc9f6bf54496310788d4624399658603a1e 0xc76327cecda7afdc593a79c26ee9fe597a62df74261446fc2b4b85dbbeb8113e6a52c0a70bf54a35341a146ea20ead5b7a242ea6950e00a9db34510e9e07ef7a73 0x2a683fee22f0f0b7687d1d06a0ad0080f91516dd9332687d6f09ede06f4a630ac44836a94ef86266d88f76dadd4f9334707ba798d88dc33dcf9c2022df72a24ad8 0x0 (-0x68dcbe933a2af8f57dc45bf7c593c9bcbb2fb88706603ef853d22ed2a628512ce81245ff13256bfec0ede7009dbdfcc22550d8e4f124654988bf40cfd6203bbc17) 0x155c1525dde43765e38b6aa53b476ecf802e0a0f7eb954a181366f6b0e80985ced177c1aba6e789b1a9e369910f3c489df615a530ebd6f06ab3a49587e5996fd6b1 0x22a590fbf397ea355c46cc9f6eb17fc7d7b790b280b4c794568cef73f4bbe9f930086c9508a57fc417a96bd52be4e37a43a14faccbf4bef27d79119db67b313d5b;
Dbl 0x6f7ffcf8c522cd8f107df9378eba849afee8f4caab324451e8192772344d81e572438e722db05e11f27bb65f05c51204822185be73465f8bf39b5e3677e6b41d08 0x10e12d843e6580b25510de9a8f2085495f90be6c831966229440fba696cd6a81ed893f8a34bba0f3b828df7699641d84048ef502f8a4c9caee30f73c85a8201c48b 0x18ad6567590afbbec44d402693f4e25340a51ac6e1fb4a19bdadccd32f0bab8b58befa01a64cdda697f4818c9d1721196c2e404cd9317831a13507820fbe51de678 0x17fff1defdb6e12aff900aad7dadb8e35b7a6619f22caefe6610379a0b9bc6562f18ca8319a858d3dff8989b6f00aa15c81076f24bf1673c9aa36b0713bd65e7592 0x1 (-0x1f6c381b4862454bd5bfcd87fb8ab23939bbcd86c426825b96e1bdd2ef75ef56f6b155351a753c5f2867b89b04aa8f38b95db366da198529e7e0d74188cb58e2a7) 0x18481eae59e13e528a170eee6c07260a4e52af80aee497a7517b4fbdadf71a79309c938a8eec58566bcb986bb52fff64af6020549658557de45241bb33fc376887 0x539fcc7f91399c29f81cd879f68b5e1048e55cfd581c7d1f21bd4cde6bbcf49911a9234c6d6ae25c3096f03dde42076bf751bac20ed5e32b224d74d388b0202a5b;
Dbl 0xa3692015a1d04f1ea44ebcef9189e8fed4910a1c6d340d80d7c2819e2bbef08aeda0ca97f7610c5f68432fe32551461121a6ca2c61139cf674e7b98c71c0c8bd62 0x12a0ed4082dad73df88dba377bb4188590028c343062434d0585d0f7b3a94dcfc6c4e392a4c0706c352f3f33305efc60f489e8621eb98bbdd05714c9d4d6e4a010a 0x1fe754f22b73a1cc818c6e2c8a0949389d138c843a264de0a0675c6667b2860701a41093ffe3a0e36a71831028ec8ae469c1638c31454319374c0899758fcdadfeb 0x1e404043bb8aa9745c832463136c6cc3cf8e323852b722d58ebb2aaee3241cb226c45bf78ffb308782f9a0436905212310050ca0d9eb3e0d1dd9e272b0d13b7c380 0x1 (-0xaf5905e90de308e4ea3166359ae8da7683bbb41ab45cd22dd24d250da62f3965593ee4d41b8bbcdb6c1693800c055cf1d21b082254068170db181b3770c8c03978) 0x3427850370e9b5f4f94daf27f475ee18eebe0b1e50193fd9db1f1475f1c92c36b53620aae60ed130f5f323c1494e65c5fff432446ec141bcabab081402fd13b09c 0x9a7aa88094efc5e48f8af978ade16fde73b9033b829d2c4cb37826b2b64c8ef282614eebf8bebe80ee889d9c07f7cb3e33674ac4bb1dbdfb482fb21013ee4a6f63;
Dbl 0x171c09379258e8f1167954d2b1bd6e87246160dfdc6538676381db3e996da3229c9392cc44abe7058ce0837311f331717969ad1da2a8cfc310709ab35d55956141d 0x9f1995f831453cc03f632405b8a3c311987e92884d50102ac6e83e4fc380affd1ac23f5ac39c5ec49444f5f5bcea20c664b7707006307795f258821c974a0c0913 0x1d712e8d7b35ba9db09fee5fe79efb9a49b296fd944f9c2fa5c40a105154c5cb3bcbd298eb0d04a14c3e9d69357a95c778c794b63d991f3efd58019071721e50847 0x8af53e0ffc68371f49787f72029dc54767aa30bab8d424a59174d12b77142cff518bf9cf886aa7febeaefd3d4905a548e3e715b1e56844471318ca80b6243df7f7 0x0 0xd8bd4b5cf0a3317e3d1701a5ee4e488ee49da9941fc13c484433b58939628b875147601dcb5ee351d5f9829ace5ab487de6f8de03472a5c9d7806d876e40e3c9eb 0x10b065d006478d45e82a5c448bbf1230381b149c43a35f4e4742fb491232e7e95472c46b1c06cdeb849c297f60bda73aa39e68e94ba43cfad32e59ee602778f7fde 0x645a033815dfee6260e6d23cd076fccf2a7ce2351d7a6930a1e2367a58301f563d1a0849ecd644c9c7308a35f2be00a25ca56d944a4973fe7fc2f7a37000618537;
Dbl 0x8a223b5f6320abbfef31b37e406e96ffc65c0a8a2a795a1c6180e19678014852b01a97fc160562f4da2d574a7e8cae59b8cbed6a44e1e5e512bee9d3ef26185303 0x14bd018ce08a2f751cf40c0f48e189ce8cd4d3737455c718337748d70127165a2342bd1dd818537bb6247465db046e3e5cffa7c2a74e0c3a66c0d200089e0b8b7c6 0x189438d3544f09a0c6ca0d4dc89dee75e9d226693f7789bb1433fdee4cf5a15b193bfd8a1cc532b1d536e1eba1ebd4031d0f559e050a1cd35335513201a7ac22c09 0x153497d2a28a2456e702263112a8b2628cb315b5107f39ea78f73b0dfb10f4a5ae6966d7d4217270931fdaf980ca33ce094bcf445914fb3ef864b621c0d6953514c 0x1 0x69ddff02ae1f101f80cd200f026bbacc8988c1445deb50ebd1ccf52a7958ee47d95f4c5ccce955f90aecc53548e9bee86f18dcbc001e07d8db5293742f9242ca8e 0x2544764b54fd548a2a54ac37086afc233028ef6367212ffcfbcd98e0f146118c1e0169969aed65445c0c520bd8fb5529334ae7f78623123c30eec10d29e555d7e3 0x5b897df5da7fe09a52e240ab09414815e5e16d83cf635d9524040b628b1a37d503c78ed784ebf1b469aecb74161d93f58b9679f23e5b8c85d01e12b20e76319c6c;
Dbl 0x11e73e7af17588646ca5e3242bbc084b6723736f6aa06dc11c804f1316efbc5370498cfe3ed22372173a8f56dddf24b6876d8222bb023c54e1ac2b335ba784886b7 0x1d8348c70da08068bb375b7e2f1e5d9ba9036569b8d3352c5e858d144a9681d54bb807aca835aee3272b7a358faa30ee9094a1095a88a3ae45fae917a54a084d91a 0x432500d5a13f81c2beb23c781375a16c9fa9e9c6825a0022538a053df3c8bd817e0646dea871e898bd7dccf53dacf94fc787ca2cb0457d23d0c2bca2f5309376d1 0x1739b8c5d2e9af0c61bcb09119c32c32e3d16e09bb8291ebd4f1bbc2b6909484d78ab5712fe2a4988ef8fa304b5a3d4fcc6b06b94cc5688c20c5e8e86354033deab 0x1 (-0xcd1228f0c9e7adbb1c8c7bac381072df5ed033942e011a7945928b0708d36b6d010b9fc6e87bc856cf80d5c710847085404fa955d0f4a46039807f01866b1e5975) 0xa043971298931cb8bfa052d51f351d64bbc63f9a69c51e594c2ad43714bbcfb9ecdbccaca84524b9eb483ef3acfc11fe9be2589a6d7ef070d0ff37e0a4c42231d5 0xcfe802ffd666c5ab7a199e3857371180f0c2d563d70ee807d9773f31be7984f6d358e5710aace0759a3836521f83f5de15e5947366a13a4e538641652ed79bf49d;
Dbl 0x13c57a7b386ad52d04c5165e5e400918950631ecbd217aa30cee75f744ba883f39ef0322fb1cabd3bf8e364057f6c25a39b662cfb29fce688e867fe27a018f9a0ee 0x19f298b766bf502baff71dfbe61ff32d69d860036dec00ea37fe2bc81dc3a2e50cf67044e551d6d311d7356696f6ebec576d8e059afad92d4557facf165d19906d0 0x18b5da8a689d1b5758f0f6fd3ad7291dd9dd71cf71f9cace4a785bfb398869c9d1772dd554f75e5b6e35025f960b49f6a95d36c35835304ba945e5e123901bb03f8 0x390b00fa6e1303d0b403d8248fe6a6e3f2b05664ae734422687614c2cd2def03ec19767c2e3d810155444cef8b3450239271303bf8dca8100a2ee488eeceebd24a 0x0 (-0x4c78a0e6708f0baf198d58a36951dde569b9ca12598ad772c39364e057674811c445a6765d746ebe5e140c511c6b96815354d61ae1ea35cb1c9912914dfa880e8b3) 0xc37442034f2e92ee22a226e5690fa2da121507b9a7a774abe06f283429a15614d80d8a9366ec220cbb2039e530833d82d9dbd082770b03731eb70676f7fe7c5bc0 0x233e8ea851a927bdfc03bec3445024d86f79c2ca795afada5e886dc0a329c1e06518dc51d318a3ac479b3e8ba19af87d12ccec6b88362185117388127ff5a8b9fd;
Dbl 0x117d985cd5e48bbd19693c5547892f677ef091a38a310934a21bba6d7f987f11372225df7b87e97698e257e7b9068f8942cceefd30cf55966121fb271063a88ea3f 0x159b4821ea3dfbd3ba7f27b31a04548c2a8fbfe7ef011792afd225b339b2de6ae78f09422294e65795aa3483f68b56ec127f47d5cd15a14bd4aabdf1b02db567888 0x1d5e4acefb48372fcf30fd1b2463343a72d3dc587a50f09347dffa7e30da9370da9243b17ab43e33d8d345900c3596ec79cfc6eef566b243e38ba06333ca1c887b9 0x45750957c815457f577f648cc1b9ea13f48a01b7eeae957882c0614e410c47a25676702c2bcf07b7c2d00e2a06b950044ee462fcde537e170ad3cdd662f6428e48 0x0 (-0x241b8918595497a33734455a900d65cfa7122df9f32e47ba32122cb73e70f33eb80d74aca3674845d353aac6a20a9e92378c50f5e0ad83aecec4212392f06621913) 0x98f5ed3cdfcdb4b47af2b8adbafed1469901a5a9d85d02e15eff1a7d1da7c1eb674c80b772f1cf2f370488405d1a1a63c4842ded7308c43224ff04117c39414aa7 0x25f6c8d88e4fca291769a8c4eddc29b2ae832dbae98ea614462815a37d3c818629ad6ed8b987c69aa5d4ec78cc9e46291e27716e072bd79005b5fb08ba4cd4b7f9;
Dbl 0x1cfda59c4ae8439592a9669ccf08881692dab45428341da6b767d5c182e2eb758de88f7bf61d80ef12da1ce450ad3a7c22eb201a7273b29998a91429b8188799084 0x82643db0530d27351cf74f853bedbecea9445b182dd66c948d1103bd6053851649f9f6a27533e0bd85eadb13ea914ae0c9d497ab4fd302851425455c2ae3e97a29 0x1616e1021d7e76deed0cdb9e777abad4a1ae87e464d1d1e7bbea64f74fccb7e4c42e0407f28d3e4f471865b3f9ab2d1a036421562c371495df1e5ccd1170fd56cda 0xd750446e50d296068afb2bac645789f3ffb7a366c23b0c96701157763ada61982ef69d7fb41a84bbd4b86d2b7e2423e05e1fe5b181871238368699bed7f76cfe5f 0x0 0x9725554992c161bc8df30cc0b65aecfef07f9171bc5cd435bbbbe557fd3211b721478c847d13b31bbf61be5e9abe79ad992c18f77b2d05b61721d509ea600141f5 0x1a43bc57938daec8aea9c36a2d8d5924db3375d35b7309ab0dc9dc78608617eb967afcdf38f9a9ecc79923af027a1cfbc92cc7162e7a93c382768aeb1e26c39a729 0xc310e8cf0f1219ad680c4bac7db9f08433c798df3256505747f642eec705435a63908c8ee553b834b08b8220bba1b35dc7c947de4ed64b4e42be3f95451b6e5b97;
Dbl 0x9e91a508ff1078ba9ddc755ce3d8ea5114d7b2bb0f2414b71f7945f7f24ad22f3c5f92b3498d97a217dd25a6318feae7b8a14ea5188b28d6d28c17352c48ba8f4a 0x12859577407f1031f193e55fe53a3ca3ac12b7a6b60d440836a4b025cb738704c658a062d759a62e3d2a0d66a21d525e891f8e49cdfc03b5ade26e479f9b9b07fb9 0x1a110367dac7150206b1367ce5c88b50de2e6c88fe2b1dae53072d7ce9a7f9333c24481152269f7c258582146cfa19f4f45aee5a2174dcfd68ca5bb1eb02b4edfeb 0x15a0ae63c4b1c241603b8f986e849f493e818e0accd022c1122c60160a91b14c9e46ff074ff997dd9b34a04a9c8bc24f837dbb30e7012c72a35fe60e2312a38fa6f 0x1 0x774c104962f23216ceee3a36af29dc12d4b911acbc37b2004424267a75dc6643e550a9fbcb136e9ba7507068ad0f7a10312ba93ef08fde3a5cfc3aefc68900d5a8 0x311c0d49bcb6ef65a48670ab6025acefc737b59aecf7431ebdcc7117d4f4f1520968ffd28d237c6cd4c7a664b45a20716d78d7b53600f11b996e03d45159c7b2a7 0x6b2bccad67028b5ba95bc565216b7b82643ff0f8213ffd1b92f14abca5c5c73befe080cb9db5805a61bc0e4370349bd7fa21c61c218ec18a7677f75d120621e7af;
Dbl 0xadf2cf725de27d301181d375ca2d79e24ed3e7a6ace0018553b079efccf92c200a3b7520b41704345d1f732c51ee709b6bef0544fabd744318ffbdb9026ef61110 0xbbd5992943a64c87c12ecd392e213043aafceb6b06145dc06e3d9e7c4cd5131fccb572e666d728f9ed0cad8ce8d9588013adb57773b8990b869cad3ccc4d6ab08 0x18ab5dffb2061ded0b89df50cfe73c2ea59836330d2b348c3fa12d188e8dec51bd13d25a64830b40833d3d853fcbeb271593aad9495547aa6508623bdbbf6ea9cf1 0x11c9bfde173b69e569d2b692ac0c1b736867babb4b072faa763672874f26b1f1a68beaeff0f2cf05433d00b915347906090be09456884b1ca25bd19a62cf4d9d4b1 0x0 (-0xe7328e027fcf0d74972950376c316e0fbcebe9e016cf2bb96a40e6eed7976c1b9f76c7bd4565a262d1c34407738a00d8d1013539e0b011aaa15633a6f46ef1f850) 0x3b190956b79be229d69211db5e2ddec81aa2679236a43eb018b69804f27ae2d00969a599cf7b54b2187e03b616f78b492dac69600e7e1421bc155a0051ac54897a 0x60b1ae5451394f5b85982a6a78627b462cb64bf1d7b4422c669793013cf334120affd6da63f33e6953cd2bf207d35d7cd128862f559292d053fbbe0841ed6670cc;
Dbl 0xecf739c20119c70a6c9e7d5a3d19165030d2898aa2ac97e86c284081c8031b4be185be09dd4ee95178272a3187b3118aa010c5bad4bce1e62d8a206ea74668b17 0x15e25074f6a9bb3cfde62a7de67b5a09597a7658c0afeafdc24b37b952a226742b6002631cbce2557ab3fa4154e90be6fd2eb792fc5d8920cd4e843d0350c62942a 0x14df54231898f55b804013371b1a07f0747f31abcb1c6d80c86395ddee3b6a5cadeac0ca35322313708dea411166e4ce6051187c8b40347dff1e6db0f49d03cf65d 0xad985243299eb0f89db044f52b2c726ea308692aa56295ffe2305e529aaae9ef46cb30fc9a9f4d37f39126c37ffcd7182e4f6227b162f783e381870397b87416dd 0x1 0x160712f04bf4065dfcbef90bf196594f756df6ee5b8843a2110f64e1482dec94f09d323b6be9da66e6e39a692fd9ce7a80f639ddd666c8fe77c2d1c0474e49276f 0x6dac609f19b6cf1e3a0baba30439fe6078161f125267e0a96ffc77613339163ffb37c4346a9820a97eb4d3df346bd132e1080c15702d1bfd13d506a29c29ee29 0x5058087be0d4e8cb4b16f9851a0d32594f9d06a527d90d78b02b09447919e7584d1a5949060b24ba495089b6c829ab748658d859d367a31b50a61ec9dec418673;
Dbl 0xc47632e2489e3d0f4b86586f7ed26a40807c1a81486c90eca246a1e011c6780b7bcb33b6d6c53d44993951adc7f3f8e71b68ba0ed9712d9f99baa8df639790864c 0xac6de75cfe2e3338c4759238ae33a0735715c1f4fd97f946a498ebd5d42b374cbc266c2a626ebc6b8ef96ea2034400b1e396f15f13560cc12b42458cfc40817aa5 0x50c289274db7fb508c856bb7987e6a19cb77bf520edef7feae8c8dcec4ade968ffad4c4a562c1673c2ea587fed0497dd5332228f5f72566188f73dfd08a1d6bad6 0xb1b71ff26c6d809719ed15a5b98200224091a3970d66b695801a8fbf55f72ff5f9d9ba07695f68ec1c4635734b4cbdbdef5487d0b282854ba9a5fe4338cbe11985 0x0 (-0x1ce13efe8dead57c8c4a72ad4b65f9babb80c52fa5e1c5936baf9cb1507ff44a840106be94aef038f2665bf05083b8ba0bfd87ab17618de745a6eb0233f3301de8f) 0x4b629a3eb8f535e0e8cb41f70e53f2c7562dd6322b2966dd63ca6251727494bdc2f883015d7112a57ec51144017677c832e57c53155902525a019116995552fc69 0x4431211897895c419c15e25aba517b0ae4a9c47d02bae58d97974197655f709a3b17dbf7d34b40ab66c3e8d4a298b55e482cc9a41b670df93de0a92ea34a147fb7;
Dbl 0x49fa3cbecd57be1818dc52ee9ccbeb6e89e4d541f6eb89069b7da9faa55627faf8daa09abd20f2036e44cfea7f28fe9ddc76ed62037f03980d2b30c6507ec99506 0xcae4fadafc3e2a9160b534845b48a2dc2a8d2a56eeb93891f0722f1be3290d231c1fb69ca81a5b21ef1623b9df31b2d1fe8aa13ac5ee9eb4c22491a894de6bafe8 0x39950b9c149003a47233000d288ba3a593984cb5bd31b97b4f529817cdac64fb7e21767275bb5e0dc6ecae100844caa3d9febda319e8703f937f9d50b8810034b4 0x1e188ec8201f008a763c05db452eafd972c88979e0edec0b4b426bcb9f1022a29a006b58dba5461499fe34ae824124ddfe50c50244d676e0c691db3e4676215cabc 0x1 (-0x96df62ddc2e9675f2ae132d5bfd21f93245042e82d9a8d3c6601e29423cba0ff3468a73268ea848d63e64fd722418823556f19ba225a2b82ad3f0676b19876d300) 0xab0559fc2178c1fcca6a8c7cb5d83fdb7dc08cc4fadfbe830873a051064adb1fa01caf4de23e41c9724b6d8133a2ace011b29c18ce4bc1365738f49601d42a90e 0x45935eb583688427a7fa5c943e87bda97813fb1bd567fe10f8ab329dc43ccd2bf477c42b11be05b2e01ab54b1dfa5b7b9c1df7ab823a67fcd7c064479971b8c322;
Dbl 0x75bdb0bbfecea18517db932bfecae4c3a518bcbc30df9248744b916bbf20dc8d199dd9f9126ded88c394888f1c9fd638b8178716718f84beb1ab8e8c93397a7a47 0x4db4eb7df03606713d5fc9d992c6ed3e7ee9e935450cf6ed2fd2d24df91e689f42e82a41fa50c2d855b29b791e74871eb190d950916c05a3e25e94c2a2a1da3c44 0xc9c6ae2030131549b3dedbfea1cdc8214f4983c6faad95aeb2edd44ae051eed55770e5de8cecdd8e37ab47b9eb171bfd3b908d539e1d16d66c248fd9d72099171a 0x7d300f5d0c08242023556aaac881b59daba34121a9ac41a4c09f5ccdea0aa483d9378c5aadc9984999638840c0bd2bb34cf9c7ea34829910dfc5fce5f23c9173a4 0x0 (-0xd6b973f16a21a1ec1b4aed1089adec7d25a16a5e38b72443bde7590a641e3741a7e34312ac6963c429cc221c857b0c83f88554a5df02e2fd1bc6b88fc5757bc51b) 0x1b13780d2341129441f4cba45f39fbf6fc53ddaaa573c4d5046f78d86e3990b1c4b48b385c9a76cb63b1752013a31f819b694ad871a5ddd47521a63935fa9ddc63 0x1cc9dcf6ebbbc354de6247ac23beded1463972e2c3d54b0554dd91f3e949cf36600832fff46bd5f1a37ef3e95c1bf45cecc1c17625938f2953accb9c46e3fe1152;
Dbl 0x1d069666f477b375e69b8e6544fdb733ad7f575fb02f65a9f15787ba2791916644b31a6e5baf87cf4447d651a73d74870d3698767481e8b4fc41859813f233e5758 0xfc8681a2c6641391fb7060550e297aafe99a8154c3d8d64e3f031eba68a6bc77906d768642e42af7ad3073c4caca8162a14421108c849ea0b1ff25170724db06fc 0x1ac8bc954e8e8d1a73f25b1c5c8b43e90862d1212a00a6dd3ba42b47bcf0b32198999a891aba47c7580d3e75ff52869a3ae3c4e3c42740f9bb7e9e76b16e0675e14 0x1512e69db29d1f2df41ef6984849d728e954f67e08134209ef0cfb3939077ac27b27ab3bbb76c97e0a88227b453aa05bc104cb84004e76703305f6fab9b7cff3547 0x1 0x14aa9ae8bfadbb8b136459371e8345227e9e9b581ef6054021d4c80c0633bd624a1ce1b9f607a6c9c77461577af0e1c83d89396f432180d20125cb57a65ea74484d 0x1a53f1f5c49b2148f75cfe8611befe614a87d66d57a3be698a7da051baa088634546c9db9bb667c27f7e824d0729b82caf469b3160e7bf8f6e64f8ed3ebec229144 0x131d77968db1208cc02e80b2e1f4adb8be34731a54a0adf6176680ecc578c2d53096ff92cfef731d055674d717ff28eacbb280941dbedc6dd3df0ad626fb1f903c6;
Dbl 0x6f282ed44d73d66515412055152d3a2ded56693994180ba5e41fe62f010949b18872fdaad860593ef3b2e5ee213cabfa6076171b9ca3f013105b0630fb1c2d38a3 0x1876efc35ab5951222ad439739f8faabc587f1020a8daf165e6dc47a3a63e931aaea6bd194efcff08c2f58ddb470c3c51e19ded182eddbf94464bc6f28624374dec 0x1339dafe302d1884045c476e3a69c7b3d530284a75f3dff94ea64abbdc796cde8650283243a6b8d13ee7b5853ee397280ba9e85afc9acbf1f82f15ee7129498152e 0x17517856d1b0ac26fd09c26e16e99cff3911b71341afde4e85826d716c268295ce1c6b96cf3e72beeea3ae5e983be4510bfa633f85da6df0c6bb35e248100a3b90f 0x1 (-0xbb91c04edc19f7679ebe897cc111b6f9190c3dcdba31cb777f5dfa19b9f79daea7ec8236c9ec64956b745a442fe771b45b65c5514a2c191b01dd71e006f5c8354b) 0x1821ef756309d202542db66acfcbb2431d2fdad4498dc820e598f83c37b289a16adbb7acf4938bb975227157b1fdfada07cab6992b0c20f60687690491d017a41b 0x50ffe163650d712d765abe2c05410920fc328e93acd9b6ae77dc6f4e3f6e3d533a8d92a60e57e5c0d94439d614fa0a181cfed0795da91790b78906952810a256b5;
Dbl 0x4c2c42d23254bd4838d65fb95abf86c607b956a5db77dfc06f117563e02bc1c4dc6d93c1facb6f59763866e3aedebfcf6a853ad6dc7f89835b51f4c3ea61d16552 0x2f694587a5a1295f3f172d0f20b9e21078c01d952cb461d14e5451bdf5047ea02c7b4255bce490c0301f93cc126e55dee989377c3c73f5d13a9e4ab8c58b327354 0xbf5f5f64da9e8ca8b27685e59c5cce9dd78126c060a9e2c73f0fe2e1ca08468c102490f12bdf3ce36f5c17104e2ba06bddbc0b846fa3bb7f30d54076270219fa4d 0x15805b6ae05b827c2ebbd0c647ed5c8abdfbef28b7c268f949887f5e5b13a147a822b7ac392186e4892d5fa0f349de672f814b59bf269c9c30bad7c39c09904da98 0x0 (-0x3263e5231a0fd91d56b15ec76555e8b8dceaa0dfb8fa56e9c88b899921e174d70e8f7657b70a56bcd86a13c7e34c504d197c5d9625b651881adc7d746d7c9e068cb) 0xb5527a9ebca5607208be827dc1b258faa012802b5954a2a8d302bf08dbb25613ccc4c14f378bd85b4ca0c4e08a0a6596955f204462a81249835001ddb17a340e8 0x332e96818083aecd097045c9dff8e07216e01bae1d65227b3df70b3f4ec899bcbbf374e531fe1b7b2f78547c3025069f562dd4a949b72d78ca1002866f9ace12cb;
Dbl 0xb6466e8d3420414ae4f9425bea33b66e0d147d634f71570f21d7e50f887284af04c5f187225766e493dbed37c4ed0be7f96abf22bb18596256ed5ba191ba635fa6 0x8bce872f0a0b276b4c0e9b59ac4cc73cae744594a9d20c8c896e924a6c9126a2000bc82320c91a620a9dddb8ee79df75d18c37c58a8c518c3016bc33413fdd638d 0xb87ca32d0e631ada96acf01355718df73d43df03574120905cdf7da33d61b597ef89c0fa370304d219e7891b5b6c14d96e95238355e025609e651f74222c35933c 0x1a39abe589b9601f3f30891b5746d1ad3ca4bd80082e25544c4e5bf73887357fe2c6f7a329c1b765e2581b61323f4766917fcffb6b1e7a4450a878e85844b550fc6 0x1 0x7b16b84f7206b01db4a36e5e308f215522e72850488e3669525412e2d77a32cd52a85d56faf8a3b9e933a090e482298501f8237d1f0eeac0b931864433ed49f8d1 0x40e41c48b58a0294306485441da2a8d32d9fadfbd3111f89ce94168ed00fb58503d649489f48a26063c7a2832b23097f9192bfc3e66c22b1f84cb7f1300021aa91 0x9561ba6b7d26338b7a7f20e5ed12726d6eeaef0b56f365e5de76f5f2a5fd95f083fa3a5c4c6b3ffec2fd1f54e841358fc0a8c4464fbc43c6e39c08da0acebad925;
Dbl 0x1928a00eb037dfe0e9c02adfb6e561428dbacefc90be981c29a5a17180947f3ed45ccc3670d1f310d8d559dac8790d94cd1b8beb3ed2c7e4abb6103df38e18d38d4 0x1b79d5ee3ba7775dbed0305b1595ba3f0aba8d7b35bdd3562a93cb8c87b66d8dbf880f4cf1b7b847cea0a535c1f01020499bbf778ca1027f3cb5249e953d6ae5716 0x18bed9bbbcfc4be835718067e79b9e5d5b82b2d3317fd2c047e1a188a83746abbc36a1d5df0f8c4116f6aa6ba5f0b21f5c7176602a16790efcebe2096494e5050cd 0xd431284b4f93b18f5f0b95a852f1234c02cb6de14df4d729e031d981f12a4dc6078ad354054d95e520938a5ccf78dd7137d0404cc07c299864c47249ed692f0c76 0x1 0xaf9047f5b1d10bd1b6b8f806c0377afbf1684e1fe0f913d536357495c37fefabe22902b2eed5a4b50d021c324ad31642410edb18004d5b9fd99dbb3826f93af798 0x13c7adaa38a2c26bd998a9f0b0a49106b965efccb30635ba1824b73efd3eb748f36209784e86bc79957b200d902c367ea3e35c3d2131609027c05468f4a0843aea0 0xa6d3ca4463c9e8d0abe68e242c79607f3a1fb66fc40467a80f465243695aa34d5bc9d7e2f1ced119370bae709e02d5a42b4742a9aba8b02c0e39b2162081d7c251;
Dbl 0xea7f853da42a0c2fa09c27063636011b04945c29db51265a86bf8d2a67d3db97e452f1e2764c215771d724564c294c6e318433421f92be4f61dcc65ffaec6a46a5 0x1364cd77a80641ba885f3e29bccbc7779ee77d364c9e1f5b52f6978c653dae05c8fe74b7349a1903dd7776a1eb0cb8b966e9f8da4f011f2c6a5f6a2bf97f0ab06d5 0xa736f359053d7da7aaa64963a56d95deeb6398cff0528e16ff83aa1612fb69971b1eea500edc8380937b7302bfa65c96d51b52d0b7d06dbbe6c79b648f9cb2168e 0x815087693a135a33670f23158c9f2c76bd31044e91fb3fad79d34002278bf87f6899a95bd1d9f43f1292e93d6e35766e2b1c69d3d9fe352d255ba729bbe6035041 0x0 (-0x301b740fa2284d75b396cc80e4d10c085c042a99b2663da0484f195e93853f07858d0056a61c7d8efbf2403b267dde9f044f4e12539345b6f4458c9596deae46299) 0x6b66af8d144f6db53f6c022ff21c6b061aa8e8eccc712eb900c407c1bc8fb4a8ea2541a9527563fca8da27646ddb2ed4fd917d17787ebabff841a6039cd1e50ea8 0x3b3a0303aae021b48af40b64c14f2bcf0e4fef59e58d240383290bf3365c50756ab0dc3d715e03bd312018e525a87005f299bd05c5996c9ade7571ea039c03e776;
Dbl 0x155ea814843f63dabc511dd7cfbd375167a0f9195f30927910cabe618e755a3565f37b21bfe84d93a1a6aefa7b6ead926ffc5c888776312f1693aace0f479d84237 0x7fd43f2d1ec330dddf839a61f18ca809a08af6a3b362e764c3e2fb655e044610fa6cc3a161513e1c0e66f8e450afece34d936a8a382497ce05708003f83c48aded 0x1ebecd3eece5cad05421feb20ee42f9cbe5df3d33119c8cb9c885662743c504d91616f8b677fd22441c393c9f0876ac04685d19501bcb302bf8f4fb698b7acee1ff 0xb678984d61a0eacaa6704839db2fcf704decdcc1167f0e506b867d60f5d69a4b957a87d1e8505221c910713a601b9eb3210c231ab7ed5af8a08622bb9fb46258e8 0x0 (-0x154d7ea9217c24b03ec9aaae7e4f1fe58f1e49072a0ef13d8b89e27abe6f15bbf0eb604b171e4320150fe1bc961dd876ad1836531d5b4fea2fd55807a02f190e15c) 0xe455499d8f3a13ac67dd3d8a9c61d404952de061be20beeccf8d107cf4a0be9439214a0ff57faa15e1b1a4edf85232740241bfceb3794904e685c0e50851ae53c6 0x79dae4a04870bebfef5d3e68c59a65ef599f9d75e4abcdb00c4ebe2423454a85298444aca104943b378fb8f16f0f32a9cb560eaf2c7c569762e456e6294fb40eb5;
Dbl 0x8554415adcbda41e45f7e1b3a19e6928c768d76fea6e7283edf768143f2c3e58bfb190b5a1e77b9349cbb3f3e4d2cfbe41504fdf5d5176493352447d5f97110458 0x104e430cd86dbb7a64fac80124a0b55a4531fe7836cdcc2ce9a5ef3efa8c4510c8bc5dc6015f66297369e6c6a22cca5491520374136e9c2b2e28756b00a9f004528 0xc837550fc24f714086850d8439fecadde6ee0dca498c0171e8a80cd923e911d8d9ccc73ff172958d918df754d6e4c02621a80c7d7e3a6c90e9939b5896a385741d 0x17af00e5f97e779378fd71a4fa78152654d6b0f204686249629840775b53ff5046ea6e7414b5adb84d7c88c7a2de3479a38733349013ad51b22e92953ed9d4868c4 0x1 0xa075876b248c27b2b3ca31bd079846ab8f91d5b5f02ef85b6be7c1e6675bff0e24b8b4cadc22b3e6a6dd659daa131d0fad2d525a1ae0c0a046230202fa6f4530e8 0x22b853d1aed696a9b4cb5f48ce725e61c514fc0cbbda7bedba83a7738913e4087b39895388f4418e11c0f3605e8b313d762ddb6a65879abed2a3927a69b3cec2c2 0x62adb77cea09b7cf1692253b85e27988a9c547026a9ce5e03fa465c538fef92d9496d996602005b715104ceae5ec912c28decc1d85ada11a2dad6e75a85ac942bc;
Dbl 0x3cbb03d7b0e2d4548cbdfe8ea3d2433cb4498d043afc5183879865fbfa0c8b08806e73f64233099b081fee7aa4f4d37ca31f3c872fb5d9a62d263c09e59dbc2472 0x1df8a12c7f513e61ba96d59a24739975957b7ee978fff87b2b71a8255f86a5d661ffd49e8fee35c62e59eabc22555450a6b18eeb2d3e169bf948323b86fec088bb0 0x1c358c9be06751a909445442ce577e7ef69559db4a5fdaa76a82a797d7f79ede4810b11b88cce7e39dba41fc20d861375121fa89924be16d8d61a3f3a2b30ea34d 0x1255a1e0591c7d18aa63f267002d1be4afb67f8ebdcdd3b1be3447199b059f3a66bc892771713063450ffc0a7fd77603eaa07488e630858f34e0432f79ab2f7b977 0x1 (-0x15f513a707f21ba810df10c0ff0fa4695e7cd666d057c5ec3abf54467c3d702797c8a7eb577fb25cc08902828cee4c5e5ddf649955f7e0d88278361af60000fcf17) 0x7341935dc0ac164ded8fd92b9985950da5c1ee72e02610add17a66f27ff6fa2f70b31b96d4b78b7ae87bcf00fd0f32664826efe98756abf37d6079197c968d33c 0x22cbb62239fbbd7b972eb098b10b7c1893b764fcdd83abcbb6b99a9891505376b2532fb5008f0f2e9501aec09f6cc2077c6c759569cacfecab475bd70d9fcac46c;
Dbl 0x1bae65bf28e37684da655eb4a7b27f51644803f8e9ef426685043b4a8e2969bca963ad3465c180489338fcf7a5205a68fa95063aadbc4efb80dc1699c94ec4ffbb 0x2b1e8bf414963d233f5372b805997cabff0b55da4025a1142995067a8b6a5e6f060c7ae217a47c770ba99bcd91c9aad4983f2a465db6891510686698e89cafe97e 0x666dd991b89554f30c866c31efcf4a5cebc6dace8ba0f4606888a7d43f557111dad276e441b236cad6243758af112c0b657aab5a01ac96cd261343ebe6ab613409 0x1b46b86d3e07da8f86a19e6ea41a01aad58ac98bd4fd9e69e8d857bdb6cfffef719f0cf06e73edfebd9f50ff4938b9a35d2d9c46c762ae0aa841abd1f874f58a232 0x0 (-0x5405c1db09893dea11fb5889f49032376bf5848cc240c56293286992e79a108df7b383d915d867d698a149a062ddcbfa61ab6a3fd08aa84e73524abf5df24f42d81) 0x17f20226575fa9b5410e8bed1d59b8590c6f3fe50507d766756ecef1c0f9c68f0f37f12a83c6820519f9337733ff42b6a8462918b1e91c75fcf464cb3eaf2ee45 0x179852e12567cc2b692796b3376dc8fde6a7488aa71a9a38f29d3497e25e2bb4d1dac0c99d51cf3295e63285c5c4b9de52572a612d547d417ffec1131fb4d98ed0;
Dbl 0x19f033fe94b74f93e630bb19a2a54b272fd2c305e5d321efdc660e7ae2166aedfe5635070065ea598f5e1fb84d5b5cec712fbda39fc6b00a0ddb5ed85e7e7f9ad21 0x15b86deba3b84e35e2fc7f58410febe47373a0afe4bc53efd4f96d6c877bc852dbd6557006ba7f3f38abecdade76e9ed11da1c389cbc1b25a0508136cbf025189d4 0x18f2ecc8f1f4854701348e990d5de2f2cfe683c748e7d876e79cb8f9ba5425ca27614870fe89ee7b82e2e0b263e8fcc1274379735573dccf20296256db24dfa7da8 0xcf97ad39d91159c50f8b7d33f49abe64c7d14adbf4606216d9fe2fb213add94148a723e1abfc888380eace1faa5b0c037a9d66bc91f4d6bb0b60532c299a5e5fa9 0x1 0x9b28769182b2b885faf8e4e5cf4d2e934def521ce8659e493eabb49608618684f5bce166a76794d00846f3fea4afd24768426354d4ce7c6c09ccc06f20d6ca39b7 0x15065c4a07908d64a103731f2b665e646f2c34c0203442946f24c41e832604b3b776de3c2f0e5eabcb8ec82d122704ccdb64a8f04bbd7d0fcf2bb17590e6e69be8f 0xa844c235a8376e31f35ea74e5c84cb74b1b762b40631cbed81cee9b19504f9582a5c3add519fd1c430c49b94acd4dc5ecd8314ad2abc69e6362bc61e4ec22b27e8;
Dbl 0x1226d4d829480261b59b69ec1d117ffe1563cc9bbf93c609e657b416aac0c17f422a92c561cf42c237d836d7f12be1522fba92694d1c8e9f3d15abdccbdd0e142b2 0x17260207c2d4135ecb15ead064b532c1e6e517a48719579fdaf5d4844a7a693b1a9c0f00735d5cbb1355e51466164c19baf4c3c68cfbc48bf6d11446efe378cab85 0x1b94aac5f5902d841cf5f65aca8fdee6f84cc3459371f5f634950084ba410dd96f8ac7789a6ae02b757f4ebdc3518280e54b2d3664cc27a98634b033a37843dc902 0x1e926be3e0e43ad717e69487dc5ab9228c8e890b5da2fc4ffa0398e83d015f17c13a466f935d2284255607c678609dd356e558720fc05699a97f6cefdc0cac4de4e 0x1 (-0xfecce6c443ea11b06697d9a45befe4b892e77cddeea07fe306811f7ed3b987e12a2f252376903768c272f1adf8e46ae94f120663a6011754bbca962554035b96f3) 0xa4bde923788e4db354e1dc938440a1442c1f79842dab199b7e25c4e5b04ff6b48d60058613406a232a572c014dcb7d1d9b5555ea599858bfac65404b10adeb7b69 0x115775e8dba9ca2a2030a1fb3945720f9c429e94029d7d2ed3b0151f71f8f169f674b3c05da1dc3d061abeca58c1cb073b4bf5fd149b4855ae91c8a10595177986e;
Dbl 0xb250fcff1a32a579620271bd571095fc2e4bd0c40013e40f56da1629a5a00d7d1db45b773f4c78574579d6c4b39e67267d0127ea39e1cab6d789c8dee66124398b 0x1c9bcca60e29781b22fc39e645c415be4db2e92d83dbae3ac5d963357a5775cabe3871d2df2a90a4d2e1bf992e78de81577f054ac944d701f467c44096f532856ca 0xabd12b0e644590e20de4a04cb19b639f3202186c1c25b582eb4cb8237b59d220a688444fdebab7b568de577d69e7668bc6ffbfbc7a24278420638cf76cfc5374ed 0x1a8a3561b4aa9b43a819b0ea1ef11d0399322e77033da965151c714ed022f3705c639d2d9432cc164074257b379d6d986375be7bc3b6ed8a0269500658ee46454ba 0x1 (-0x1f0657bb19432574fb0da6cc355ae728ff57b197af69b7c8158afc33efbcf0d651ff68bafc08a58d2898298a88c38f223537970d12f8446dd8c7c4567b7940252e4) 0x3e1a5cb8ecf303c690c1ce0d153ea7c02f353e407bde4b23e31ea7b5968d9707c71987363ea2ff718fb164e48c9e47d33b5e4e32b655f664a869dbf4ec303a7c5b 0x93e3f448e8adc813d1050f6e7fbb1bd011aa3ca36e39d659ba297c06faa38f46ad94e4965e46809b3aabd0a4ee6b993f49a8f3e8b7d7ebc97a552caee1c311d2f1;
Dbl 0x1d2198407cbdf096d3455b702da858786e4acb6404061d04a343b8050f85cef49aa406832d3f282df4ff31d6f5cf264a8c56bb5c6e352c326611498c1860cb16427 0x5cb17b1b9bcc92239d3b812a15220fc04df27ae452962f401924176f925c1efe94617ff446eb8f0bbd8b8b1a9cbb62c5eefacbdef0be55c9d6dd0f09b1bb55f47e 0x10719d9bc7d263040490ab34c1765c93002ed88b0bcca15d271d3a496952263f4987bc97b0e11b68965410ef875a8ff2aac8ca2a1cfbb699609200f2e48a465257 0x16d0b4f4546caef8e92881d3a471f4c248d3c17f3eb24b46c44721be8131b3dad4f259d39abbd7b4170906e784ad2854f88f588cda38f1a556f9f34ffbd97d2624c 0x0 (-0x392d980412e419475edf2f01ec0ff4a7f2d852e481855d0304455895d7af32fcea9fd9761897123321b9e49d6dbab03ea25674ee27a82417699257f176552dbc20d) 0x1a850739bb7eaed2e1a11721d0090de6a1c02b56cec5f4530adcb3675e58ce94fb71c16c30a6552eec415c6b65348fe9d4d0f939fca2e2c5f340bee596d148a2421 0x14c517c55e5c31bb7ccb838bf5773a12cc1f7b7ac37b6def5e30193ec394a6af2cd918908c4534d2b5293099540d760568f8e43f127cfab0795ea065047b09b1db0;
Dbl 0xd2d61d3afcddaa11b9fe3c4c6ac6d02fd2acc6945a0bf5374cbf1d542eb3f73111555a2c14e5aef1b629d4f1b5e04cfad34e4b65f574e3a70e2406cbe49032d6f 0x1099f6fa43de6be684e45a84216a1ed7860c09da7a94d82d15d9f2e7e1be41eca93d934f10f2210cf60b529cc0108d808b5ce20b1f846e78faf41b4d05bd15e752d 0x26eb720d23ff69861ac5f4191dcb3c2b37f94ea4495c3060ef4788cda816dc469829c3d4aaf9f4fa5a79bbe62284339a7d9dac1bb8349754ed592bd464ecf53a79 0x153120b775de5d3bb4ef5d8e7fe802247ed31dd3ca948ac6ebb84e8f17678003400884b0337c97e3c5cd6614e9bb28abd392cab2cf8776e3a279b5a3955e9f77f50 0x1 (-0x317f6208b3da6607eb57c1f76d719a53b090d43f16285542dfb9d86ad8a19296d449ae90a049f66ee46a55332ccce4df6ea419e3b216922febdc130db32272b369) 0x56d1fd84d4686c3f98c3257404c8445731fdc763fdb8facecb807b4e15324dc8c2f4f44c2c7ec67f80f9450cd36d0bed7ddb0cdac851dd632472fb07e1602808 0x8ba0329a568ebfcde8857b7ebc0329973734578961a5c8bf59c5d8b4dd67990591dd06db8fda217197a09c6dc465f9ced6d37d72a18d898ae03da4254359a4920;
Dbl 0x4252326f03311b28bc95fac022286f01fbfe8c7ef2e40a5c260bd78312ae901816ecf07a574673d2f4f607a97e9c7f631d53de7fea9dbc7ec1d752f93aed9b3a38 0xb3bcff66acd4a20677417619c6173c7f4f001c2c965b608fa35bf7b3a784298947aa71c57f06aa6c21213f80e023f375fe32f47dd21bc66a3f7b9409bb42df612f 0x12c954bc056a10dc7881e1af5cbda76d272265226c5ff10fa6de40163d89e4c1eb37eace6f96b0dac71f6a508fddfd32c0d8f39155ef875e59181b9b5640603bc79 0x55e2703d91121c61d7043228508ab0f911c0817b12f22241ba4336ca745ff5414c2ec32b901b66633f93ea4b20e4e492b79b2c34262b21256fc620c6a08e7f13fe 0x0 (-0x19354022811f40b8c06601710f3318ddb6dc74303f100b765f8411e5a3f419154aa7c75a650318650ed8f5e36f710e5cba7401b3d3db31acbfd228623106c43eb38) 0x8973e32cb59756cad48e63618cd47539455a1939b2b8ff7b62f69cefb0e84324219bbea7895d8e4dd87dcd1dfb10ec3f9bf003bb7ce79fe2a24fd9127a88edf49 0xb1ffa31a5a5fa754111fe60e5d0e83038e54112d4f168e6545923c7e9f1eff832cd937ea5a24212968473be3f4ab44df39d2383f56c51c97692ff3461bbdb0b62;
Dbl 0xd45db37ecd0c14a7d34125283c5b5d0d428d0bf91461963fc29fcca1347ed650ac8398f62df37b1b138df45d6e9c2b7c9e368e50e8d1e660b1c91810b262eaec6d 0x2945b959236b7d98b1ab770cd77f034fdcbf1f09cd90bb890d8f09dbf6c2bad8b350623c475b31b91735881eec4441a2ff73071fd967dbfebfdba8e40547f7153b 0x1507bc5dbf3e8d8ab751865f02a68e4b123680f08622bab045369bd1b6e70bf36294ad57b343696269ced8e7886f4e366871289bdb17024d641d2ef1e00f599c343 0x8a77460d8969246dc595ff0cee98392f7240fd22c8caa50695ccedd7b0c16eb0945a0f8937ab78b309ebb761f3dfb1d2febfed5df8b3ea6b7f9feb25b5fae84bf4 0x0 0x3c0ee2ae85ddfd80941706e2e8eaf7ce75d2bc51da951386733e9b90b5780cbdf9335edd88e2d5443fb141e652a22b899df54eede1f4c81228c77bb768de725cd6 0x5815a9caf5cbc7452c6b6193b583679413bea6e3989a088c526d066e410a22b4185232dca4e7f451bf160e330d1c82122272a2746a9581e88a41e9db4f4818b130 0x396eba36d226fd7bc0784ed673aced016a123d1f32ba49bc71fe752c157cffe17552f5ef07563bfcb947ca2c2c4b26a8a12df588bf3d95985aa73dac8a2ba838d8;
Dbl 0x8f7e46c91e952e1789230825f87a4be2be77883fd2bf0fb8d86f53b3b2a18801b71fae400f4f58b4ec888a18d8215c711f8d53dc1d78e8224811adf0347185d52f 0x50e06346be162238b60d15167af6c72694d24dd41d3c016bedfb13992ceed3b0dbbafc83c622e849cd33bcff3f3a074347db3908d14bf2273a4f6ba84d09ed0733 0x1f4873ea1aa905054df62e24b184f17b16639b7ec8ed79b3203763ceb6796e8455463e3b7fcb66f217db8af77e1775a77a546aee84a3f0cef9e28fea53455d96852 0x1d865561265555b5ffb9e61f65c883c2947ecd135b054ba1d1f93f642c9d3e727d79565b88138496f4a01cb1fad0a3a5fb797ce17081be9d7858c3d3bb83e0a0e07 0x1 0xb2a000f17498fa3a46cf2b1cfbf271275cc98d098af55a0cdc00198a5e2351d42e7bc487931a7d553db18d9e99f7afb84e9fdef8f424ffa06a2eba394203d5022e 0x283728af38dbaf8924bf57a393238c67fe53dcf0ea73ec9a7fd20337f15349083fcb566fba42528f3ff658f4f891097bd64fb95db2bf3a297e66c94914e77df308 0x8464cfc9bc98a929b1011985358f63ff51834d79d354929fdcbc8828392c7b1af204cff55efeb7b0ceb72ec0cafe765813eae85429d091e037f6f86bed294bc54c;
Dbl 0xfad68f87fd7121334978a61498e33f5b1b7b319411fbb1535755c2e2c7fe36c2d76cd42d6d06aac6edec01d5e2727ef5d78bcc1c6a51823687d8f36002335e0aad 0x15fdfb15df3abf81b196f9fbad452533ca324ef8956a2c133cf5f03bbea00e7e1b8a465075d1623e85b31862f75ab64d63c4749379c2a6efc260db2b099cad6b074 0xa6a17d2872088e500c5f4eba3aba8c76fc5ec032e2d045538cbdd5677a9277e9bb63bde9adf15aa16faa0fd8ee347283f14a9a066c9cbc946e0616fd242796855a 0xf100b1e8ca6a2a1d9c9d755ba6a473e9f1ad5e4ac69940381e9c0fdd42edebcf2316977c690cc461720236cfc98ea26d0b93efd13521832b1441b8f7b33f1656be 0x1 0x1c41c10c284e34816498d738ad19b4ee50ec294d6ef3617aca25da222552cd9eab60b6a7c2788acaa28269f0b7de342546fbc37504ac02fb174682333ff73b015a4 0x7ae3e214f16af1aeac47cbefef519c18e46668510aefc1526dd5d4354d51da0916eafeddee1233789c218d0f918e0c6021e403225578112f0d18537bb31932c5f1 0x761255b8bbcdf68b911f77d8d147a4e25dab28f0f996424cfcb7f29e1d3d201e2533ba87f9a913933911cf2ee0a49d8df95d156c15d9a9ece15cf8b2c8482fe346;
Dbl 0x1c32a7492051a165a3d4b34f15578aeaac19cd2f1e2f1ddcf355c0dd9c0df6f9b280140c805b8ae612bbbdbafc08ee4cd1375bbc39bfc6ff8a490b4106707ad460 0xbb8852b438f5a3b0cdd93b1d93fac908d2d4f4d06f31d769cc8fbb0ed8728a40eaa52dfab22947d11f1e951bd5581abba5ddc437839d2888d8d8faa3bcd4cd8948 0x128d38481257e61408af7b254eab44784ae05c307b2a6b8db305354ec9efdfce95cfd01ee09c4cd0dca332c292ecd6ec216621a808863cdb21f84ea0e03c8c88de9 0xa4575ea9bab6546a4b96649d40578a33d04ffab8e770e9ca02cf48ad118e5da0cdff370caaecdc173c12f113a0534a1a96698500188d46734d34b80cdcf609272c 0x0 (-0x2c3201fa35e0a1e20f0043a62c58a8f3da1a97b56b9f11ffb201a9ed77e9c31ef37e0d04d27149958421233ccb2a91b7bcd4f7c6eb8469a9f374e4b598d34d9f5d3) 0x18d8f4ee2797c1f9d5fd8339ceb63b0b90a95e2fd41a0500a8b39ee058bcecb880001d317c27fc4722628d5fc8652ea103f257279e2ca4cb01d199bad4ecbc630 0x90d09677efe3990d4a7612e94d5a07c459f7afe192edb9a870747ded52e33d2e88447bf516bd5cdc7db3ad9f640081ee99206c4ad8e8fecac3c56e4042d87f2c3;
Dbl 0x122ac33ab865cdf8cb8a06ced461d1f33a45b33f929a51a3ab965393cab57083da7da3578c869fa2853697ede69eae2588928258752b81a583b71e45a039427c90f 0x73c2140930bc68242dc98361355042343b10d031280281e10bb5f118aa5e465baf49863dac4e8635338898d789ab10a910e1f5199a3ecce0e2f9b815fe2f1993f7 0x1b2b1679b0c56449cf6dc0856fbb6927e8349757c532a065d8b9375296868d8b7a8e4458198be6204bce5347265c7699f09d4167f1323db4590f1417466e84f3896 0x47c63eab08393b8ca00fb7bc5eaa86d497c4249f472f5588c0d9c9f62e1443e53b5ba7bd05dac19beb95fc444bad0a1294fbcf1de95e5ba7f5df428dbea5b3f551 0x0 0x82f69bff6f96fe23b67488196531f04ae07791da27618ed0126fbcbfbb431f58996cbc9447fa9da55dd87ba5a1cee8220f437cafad15c52785e067580a1973e96f 0xa5054c730aaa60de7f86d0d1a285ae8b6ab71294cb6a7feda29b384d4fdf655a60c198e8be3faa9bfa53159b8595379b8ad21a4941ceaf6b1482ea1475a03a17a6 0x28bf6d5637e70cc232b763383fe9d56f709fc83bc4db06a3c6ecbe1c528af29ebc7a8b7cb52cf168bc3580fd3f180073fa12935b20b64e822fdda4e1f47c98cdc0;
Dbl 0xb0ab866697d293ec5570c472ce94938103cc1c14356bbff1c9f8232f233ca51e27fcd4c09a1b9b7a06639647a0aaa0ff66b2ba67879dc94f20934e605455d7b31a 0x48703e609e62fd2244a1d47a38cf49a617bf5b8a162bc6b1a09e68f293277b5084d35e5d8cd4fa3e4c14a960425c895eefa97797d41faa5c821d43440f28eb6ffd 0xf793f9efafea9393b13085abc579dc86e588aaf0bcaa35305bc5235ebf99fabb3d753559f5b5750bb30f8a308104002971428b8357c1975ab5909fbf6c6af3c4f 0x2b51d5a892596b01e927aee6fc80f88e235174a711d6bb2f6b1788261736cb0b2a7627e01f798bf6e773ef77474e874a21387d81c61f228460dc74d1ef062e23fa 0x0 0xdd794e3debd655400f47ae027a9dc0989e3d79f43f3054b86d0a87721473446a6df5ae920e29d845f5428eca18be491476e2eb0cab0c7397e1a53fa03a281d8678 0x3cf625dcf22ff7622df44a212178bd0ebf3e5371372ecef23a4a07b1ac20067cce172ec73f98530c723132f5062d157188aa735e8731bfe87cd831744df0253947 0xef2a4a5e72cc0204b333c397fc5a0c7b0f7760e49fcff1e634e0a3c8d1aee97f078f699b65188e72e46c6f58b486b97c0b5aa2cf10cc014b8b20aec0a9230ff81;
Dbl 0x5a35388bc9c8ac47886999ddc144030f3b04e8811d143b06182b546790da5987385477f5ebc11aed05e0eec90bf027185a04e5ece2521181f7bcbf1bb09fa0557f 0x1ec3ce4223bce402aa24ee930e51c13af9d1a7d75f3c33bfca1f33c4701a30bfdaa8a9b11b1cc7803220450b6c79210d1ca109221f7b9b5e762f63486b5ce9c07a2 0x1ff686c0c7bd2cad2ad6acaf7b21882660ab194e11aa13ead38c549cecef366fc8798d1a18d54193ab1bd80684a5d3a2e52ca5f04d003c1edeb2ffbfae311fdd6ee 0x5c335a3e6294bcf7a252eb4953b335f67aa4de1422688ab4feab2cab91846f52da48c34bdb08823b2a1058a97aca788d2598e575dc65f4751f270ebd595a4f685a 0x1 (-0x194b26907225acbf5f5b2ff3462987959b96f6ae28481235244a1dd3b22dbc32592f97d9e4ad10373a112d045f18b5cf1f418b4c6acdc563be23e3a3db72382c4a) 0xfe4bb6960200d6b15efec8df7cf8fcb8c802d58e38078bde206d2072c8537e1576c6b0ec2c7adc8adc4d1ba77ec6b6599d0019c49e59d3cfb633227956325529b 0x103e9c5c98ef7857ff49cb30688757b35f59725e32eadb212ab634e0fcfd1e43d66c640426ffc1e4b2730dc257a9120b6526d785d7ffb30bae03285d388f626c97;
Dbl 0x13dd806e92ad1e2037e1063e2923063872f4b6e3529f05c20ba0e9978266f72f4dbd05b79b10fa346907b551e1e0b5a85b71c546a05e67db643580d2b4d605a1a9e 0x4022955a4df09c0c811210aa5e853e2029f68c7538d72b31fcb47ff7877346265f0dd6de71359590d690e15a5012fe91f120bae09cfd9e0124327eec483e206f1d 0x3252b9040937b0125157b5e52de3cd1c8e809b7fe436360bbf7af29b71b7d9fde1626eaeefaf9e2095fac563c59016930a9d6532fb4bde2f58e194dba07335f4a6 0x1ac1a4ec7eddda41e213cd8868696d58f7323f100baec10caa53ebc4f7a2fc5d74b7cc4334096e2724b736f5c777f123fd8efd7415abc17e63ec3b59a6d907b9885 0x0 (-0x310c34d5a1bdd2ae2d84e73ecf4ea623c5dafa97774f2ef95d76c9091b7a1a42048952b96f0c692038a291117da6c114a8a28a6b1cb5ad81ba9e0aa7b695356de3f) 0xc5505bb48ed9e7256df438c3f0c12dcbd95e9c7e552e880f98106b6c0816c6df52112fc5f4c1f5251777e6078f5993cc47972d849b5e4e68016b732efaa17c04dd 0x109c2eaa749d0eb91540967295cf0f8cf504fdb3a9d3c939cac8aedffa59251a1a15b5917b41a4e5249519fe365825b936de5af7784ca859528c68d0a914cac277e;
Dbl 0x2ce5136f5f3b13ebe5d96f2ac0a1548c30f76d5264af2cd3d110bae7b6bf8eacdb1709105209606d7ef9a3574c083f715ef40b165595560715c9ab8dc09de9e0b5 0x58da262fd344760c21b0a372de83b65b62db164bf4f293c92580dcb967a3b1db5e3265461a619f159d48d139d16b3956a178cfc774963e7cb17eff6eb56037ff54 0x1528acd999da44f75fa020788417187709560bf22144f2c75ebcf2312a4190531955b32314bb42c77d256b4b751df24c7e30c7b74ecdc54c213a8f9432da6dfc562 0x1e7486f2a7aac26005f616d37800187c4c71b762943e49768d733a33e1fcf944b00db719856d3f67b394810207ea7c53b4fa7eb1928675f8472b37f7d92dde86fc8 0x1 (-0xf46b767849f3aa097d71e8a40e4f8fca9acd1aafaf64df4ded5653de141f0443763cb2052cb97df68c4c925ac561684462eef1f00e404029f4e37ff123e2bf6e4) 0x3efc5d507bb33909c549329395182cabe6b3d6bedf275ff28866b90d4191ee57e505e76fed80badf4a4ecf1b6548ba2f0c6c839fb0d6bc318966e227d0bc19d95 0x2aba3df28e0100f4e6e04c3d8f682ace121857766db5c1b27d917d8a80c5c63e2fd7ce1b68a50610536a5b06e554c35134ec91e36a0bddf069904950b06de7b1a0;
Dbl 0x936d77dd68a55322e2712a8445dab72426c59d5c7eb3268710a8650dbac2fc7e745b36f682f43aa7a8a10f91b583981401bc1d5153e8531392d8a87c2162683b6 0x1525af10b9b9449695171c9c23ab2a9c6a03e47772fd99abbe0dbcb15185d5b039ef7dde8c5419687d1b69d285227cce600e97c179e8057a7100cfa67a640b0a066 0x1663078097686d07325023afa76ff929c1ef1b4212712e344ee27c3b4959eefee4d895a3be3cfeea9b0d43b3ec0ccb4c1b11f743fa449f15b330f96137f2c91f83a 0x1067f352437b02ca2d03ed9b0a3d10c94c29cced4c518f90d44a511a44f4656d7bf3a875d5520088dcb9234117f436c70a08f53afd615e6d5a17205070f1f875eed 0x1 (-0x2212a6be277c45e6e2e6bd7a7483c7a4b4316cf18aa4ad1a090ea190aa0829504d7b4d0b792f253d555ab6784fad018c3a6831a097f364292d520ce9019d0598ab) 0x2a73733bc86c488533a2c12173dd43f401324cdd69f1baab8787e97eaaad3023215a3b587cea7a367e900eadd0502bcdbb08c3412d1e9b10db8d0cca5b54d9aa 0x4b95a54aca9be44f388249a9bb9c26b0460b42fbdc4c3393d0c174ec7525f8813ca33b1ab6d6c5ab24348da6f435604e5a06b11f2b46aa648a10459efae72fa1e;
Dbl 0x10e9aca3e9c106e04ec1fda09e8bd137334918af1456aa5fb1ec4da201bf6ef513ca2a5a72ecb97c2edb49a562505157f24aaf69b11574e0fabc5f97e0b8a04b0be 0x19978aeff6c1281fa561ce2974905c2eff8a6a39ed89195ee81d4984b136b5617ad80176ef0763ab5c4a7a9b0144f404eb3039af24c465ebf3448a2fc84658b96b8 0x14ad6b5ab1cf767068478e165ad732cc46e8f78ccf876e23a8c62881658502e66701ae1cb659e551710e7599b2027b97cba89212e99958219f640cf462310374f0a 0x1b8e2420c2f81c76efb54e72af1ace6d6a797a3d8574804cd5f0732ca04f204ebf177c679d4cb5bd20d0ef3783dd88c974de5e1255239f8e7dbc4576b21db2509ad 0x1 (-0x1242eb47d7f692d7995fb282dfe5914f75b0e6cdc6beda3c1bfd2d9a91be69cf8d392816c0a9ca16bd2126000b5904b4e320f272d045d52cadc163a5831558d3c2f) 0x8f05701a0226a4b8525c2e33e70654aa3b698a4a5263f9c8661697f4791bb9e08e4d55194d0d4d2f075b7f740a718de2b0d6c09c954d5e99fa603084da0ef70a80 0xe9049b09788f9e5b17752f0ee4e65028f295d47b93fdf5c265be792eb8983b3d1fde9c52f1bdae4beb0f5af7db8dd52bb7229b746a9ef7929b61939b9db7f128de;
Dbl 0x1041c51960b6a890959eafb242461d1bb0fcbe8ab0a67b8e8d2caeca959e504807a7677109fa7e8e6323d40bd03674b2526b63ba28448b063c37c43c5ed4df9e9c6 0xc4745e27721a521e4dd4dfe534ed1ac001f11a4319c75945ef8ebad3d9c24d7d1ccebe6a9691f37dcb3da8e8ceb0ac99c254ba0522d08596ffb342d85dda44ff51 0x5bbd339a789c246e440f117bdcb7db19b42fa1ad6d8430adb9490bc265ce5730fcfd4f1d36ce9c76721a54bc479c0684eaf8887b533b84ed58745e5b41df65e0bb 0xd50450d7f9f82fdc084802b21418a82ff6b5895bbeca3ca89245dd7739a9089a90b1590459e44737f96a00c7459e93b4f0aee0ed2975d92834956024268b469767 0x0 (-0x286459aab857011b663a93e9ab3693ce91ebf04e321bf1ca7a8c6c743ead1fa6ff460213304100bcde1f131fcb7fc68b505e1a2937087f7f72d760d830aeb3e0abb) 0x8424c46d5d019869e261e7c07f76bfc63528f39f0c0deba9be3cb364ef6fea0c3c7467c09228f5387ad438ab99c12d1377c445a6e760b1cc7ffc9ef230f0b6279d 0x6c37f93bb48d78d745b9292f7a9982e519146c159d8f075a8d85c04de94cfd22e438a83c198a75b58a18033816b571628beb24e98a3fe4ef2b23b77643b908571b;
Dbl 0xd96ea1d2d2a3a86b75082fee8ceca4f2faef666795dd3d5085b5e09df37895dbd734710d7e98c529583b8e7f2ae9e363c52aff5f4ebd885c9af8f1f5e54cc233d7 0x8d9265b289699e5b7e480bd27f42fc02fa943d9adb64e05b06d2266522555ef4d8930d835ada7972c5442b97782810e499355105b08cf8a2c35f8fd91ae19a881c 0x19045a0243178df85c95c868541b5b49cc4a6646098f39218cc3785f3608a5963dbf8c55d1817db72ee6983794672942b762131e73270e2672b60df9c855c7cd14 0x36e1f874e8b0b3c2cf8cd412b5aa1ebd075cdca83e6278eae8bc946eb76cee88443bb0e73bb77a0b05f97d5156889bb5291f68ff72438cf43c53b2ff42f8aa7735 0x0 (-0x9438919324e48a82ac7e5dbec516a717e3a2fc3f388cbc7529b5ac627e1402becf84352fa4bdcca134cc36ba15a6c10494defd8a8fee2d219f974d4533b716953a) 0x5c565f137048a95d82346b5e0ea454b45e178d044c63ecbaa87f4e5553d69b83e7ad37a8655634e11cea4c3a342775d3b6eebb3fe68a076db27999631651c9282d 0x174ea1b295a0c72be7c61f050e7a38542092e10b6cfe211489de58b5f3263637d9c1dbaaa04c0ca2602eece82908fbba88aca449cce913f24bbe333446561a014c;
Dbl 0x18815d147980b10b16bfe718693b7a3399b37e014c9411e9241610762e3a677869b8491abb8f2a843d5c82ad71e350a2bb2f87970ea848af3c49056aa40141353b3 0x4f2f29b7282d812ed59f0127b25076c2ff9782e6f9366cada308abb38a14e3b8256151d2b3a82ae7e38ef6e0a6fce7b5f7c52ad2d86afd784006494428cab2443d 0x2d5cdc56d1cd383eac02cf381831286fe1986e7bc45ecc3f545442d6f2d1d10b06a7bff79911aacd17f7e4837b72a901779338a870d7f99e767142e7e004e049f5 0x3e633bfb613c1d2ca8a90aaaccf2853ffafcbab3e22e73ad63c97ab198407b3cb331bbb0a7324e8ae1b534b6d12b292ea1702632d821fb2a83594694f216e843df 0x0 (-0x4f1f17fbd7a61eca95e106fda4ecc367f46d34549698ccd64b42c817553edcf2c802b1f3828eac3ac0b518ef857131c6485986f76d1e4a666c4da7e8cf4f3278cb) 0x12c416963a13b679becc4863ba0c5b67e6ee13863b08f0034cbf9cb7723ecabc0c1826e5f8e6efdc422ab025963044b7f2524efb2bc56985bd572be5a550df7c54c 0x2fc6a27ea78740d38c5062a2112cec11a37ddf48c74e21532c666c827505faa128261b9ab84b91581b527e6298f2bbca32e9e7eb0a67ac5593acdd58aa92b2551c;
Dbl 0xc2bbc172347cc874ded76fe540a8bfb43f53b83616d658aa61b74c38d38f91fac3ac623f5c099b67d65a9a8ede914d9643c5766aed048fa819a6d7eaeda57620b3 0x7c31864e416978e919a54117ba2c6c9454f9a662d4befc0d7fce7d0251dd2d701ac506637b91bf22b507e01cac61a58e243194664ffb77f86912427d324acccf77 0x7643e9474e002065093d32e10f7e2c14294817f90b470dd35359b2f9342e7968ca9fc1b8e2827714296d0065933e4a40ec68742001f8f24116bbe419029d971044 0x1d2fda368e6c40845bbf9c00ff8240a2eaa9ddc84247770a0233a2eb13837b6480a9c4b6f38166bc52e8716c3fa9b4227d393966c886f857fd6f406c6f67fe574c5 0x1 (-0x23b9291171834e7bb6106c4ac2def7df599ed66b97567dec5a66866e7b174ff9620d3b41b56b984886813a1aa1e4af20b69cd2b23ab14ee1550a0159132f34906) 0x4a108d72a3499a1a7650e157431ce23b12888a84d8713bd6d10760ad8495fc0112e9048849eb59910b2cdc58fac94d26009f2e3336b023280852b9c16cf9001ac8 0xb19d5afeb4b28fef9fda3005d4f0ecb0b225ea62f9db4118b1e099eb6eb72a1ad507c6fa6a52fc6da4a6658cf95f75d314e5735309420f5e9d29e10e22baa0147a;
Dbl 0x18cf954ed78ac0966e6953d3eb916925b05b70948639d17f3dbf377132e4a6e2d61078659aec1ebca292a620ee739d4fb1561e602e64524dc62e0a2ccad1a2dc164 0xe12c370bfeec8c2a2b47affdc033486c596f1a3e9126cf35f7e96e02cf8b18fa5c037c7d47d974de7f9cf0c767e333ace3bb94a33d57c919f2c03c182d851368ee 0x1ca103dd1b9c8878531f44a8fc6f1004bcba72ee3e81ff4631dde8edba2189b0ff8b6ca46ca2809ac7eb6581d7edd0731b2c4bb672e2ad42ca2dce5de2c18a3f84b 0x19b054f42427cecbeee5d9119f9f92427fb8a8c2443982cd787e50eff82521475bec189e633b84a44356aef55447e71e14075ffc312a3aede7652066504c5b96688 0x1 0x5d04369b707ee24c781a2886804d5c454d2d1482a5b47235a40cfccf2219d88941a3a09624d5e18cfb64f3b56088c8d8fc2f5534fa534e2f39b076f6dde0e9bed0 0x133ca28ca7fbad79d1890780895f84ce9fca7d9536c17dfc397ab45179311102972feae09b777fcd52e8bb8d7b8a0e5bc23a378d1d1b6a38f17d174fdf43b6d18cc 0x13eae438fccfb5dd96fc876db62773757173ccc7cc1a69b80a37df4c92fa8a04f905a3d00afdc531f91762a064ecc6c540bae6ee3c5858fb7654027a857dd9a736f;
Dbl 0x13fba24594535c86d1401cd75b8d9a63a63f659a4477417fe2eb673ac23d064515407ee771f4df13415e1c65e6a4c44078fa84bd8298943fb21904349c8d7cf4db4 0x148fa059629894e9a614751cb2de5c125fd23254f4e26b6c05fff7a316c39cf5ab2e0b9d7e8df82fdff2ae2d2833735ce566d0479606efaa084cb35df1c0a0eb364 0x1f2257ab659d4498d118aeb7ea43b424e3468c8b34bd27181b2346d7a407e2ad36f34660962bba001e4ad1c8c7274bdc4b6f4f9f08cf5fd0dd6e64ca47b49112ecc 0x198323175d5633d8fca005e32924d87465c4bf4ef4300187597e9f3d16351499fa922c2a55ef9f1e080720df4e4abfdde8d4e9029dce8ce796df50639117b04b589 0x1 0x113012d462ff5118fa4d3c356d73bc8f1c202bbecfa1592ea8bff239aae96921309deb9f2042450882ef12001fd82d0a5d76d408624c1bdf63f010b1c4551c67051 0xc7a8b6f7a8aeeb1fb46bd1bce1d36fd01a4a2181f390ef74f02d229bc4b15152dcae97305b01cf44a25d60f08276d10b931dbda2dbfd557d6efb4e21d3fb87beb0 0xfee7ad0795a3608c179557dd76b4f3d0726c495fae06db9ebe4070f46b5e2bf6d86a190b5bcb365590ae532ec83230842a9cd714bf871048c2c1e7cf0f9f044dc3;
Dbl 0x2ff86d3d11cd06e437cef096cdb6363c869700d7ac3bf5307aeac5308230ccc6d32ba7a314f43f52f5e41c569f7c56d17dc5c9f39b9cac6ddcdd19c4a46c90861b 0x7b84cd0142062ec300b3010cf7931b97c8c48f8371ee821e250ed7916ef22337411b53155d02e15c25308cb8e61c86340f102ff10066e97a7ad57280abb5be7e6 0x7799f6ad72b88ca34c646554b91e873fbf5b386ead22fa3bad2a567784a7909cb6f363dac905915b412b9ec6c5f9eb3538f8364d18b5a7402d05a7a5a024b6e1eb 0x14141b8c61568ebae313c21ba5e6c8f6c8096dc571707ce9e7dae8cb8554aad273ecf04a6930f54e83cd7da06f4d56d6b157c017a50688c08dd1ddeb7114eb2cb7e 0x0 (-0x21cca295867cdf3867ea6d4ac5229f1fa02956f48cd45da391a51162571f5315ab01926a6b53acc00ead9ad256dfab09e8f718a8a37d5993f211b92f47c662e71db) 0x47e949820bc6abf9dbd4e58572873b8814dba242673a668babfe28d094cd05a78051f08c7943c8a00fd0477d90ec16fe47b16c6503ae770abdfed78ece2d907d5 0x1e1968d67e3f83630f8a188093169cdf817784427772534c9ad25b780d076204222c9ad605af8c90e5d2e57dd9ea8e9cd54486e1d257d5c7cbf70f64f2eb88a66d;
Dbl 0x15440042f082f48d2338d0d652f4dd66511c9442482c3ac2e827160044c937c125293a48aca82168b50e380827dd6b32273218af8850fad8a77175c11b269cc4c4c 0x182d7bdb083a0969dd395ae93cc7641888cb97f4e73df58647b3d990b98b84c99d438ac8ba60d96a933212e32a992f81574d09d8e74901ce1a28f37e861fc3d5a8e 0x90a4d202209f9ff142df04cbef428884f37f662a0625bc5c0c17939ab22775f0fc19b198f08b4be2a79452ca0f0d87eca39db488f48a57b6836531530c17830426 0x84e08f1f907fcc4e5c75817d0302f030efd2c9a9c33f8fbd6713546d7e36d5999fd908a5afc2976c8f31da98e4ced04dcc2065709b7651b6051e1f3fa8bf1e8d57 0x1 0x9e9cfebd93c751fd9ce9bcfc209c52c4db22503c48c94801f08cfeedb2fcf2a610567d74bf317c451dc996d0683cdcc6fc8702aa9e87e8cbaceed6d4c8e37cfc61 0xe21d0d8f82a998fc1ef75f17e1c992a15540027a3094c75114b842e0bc1d2447f5faff7c7edf5fac0de679f53522445a4a46419c532f994358fd50cd276b17f3ca 0x584dbc32cfc217ec19c9555b5881344fefe1ef9b4604c55a4cb9f0182227cc44f29bcbe258e2e1a7032d848af290e46ae6bcbdb4e6bd501712baeb18071cde1c3d;
Dbl 0x69e66db92dcd8ef821bb77b3cdecd297db97e60d1832c9e936be857eb6874386824214882f9c0087c2a275557cd3edf8bc741a09ebfd209dcc446edde8be866991 0xcef322493ad549eaa97f0b55f7798e80aa1fea5391d65d265f0f2d350b51bdb67fc4131279435db0f0983e0c6af9f783348521ac35c19ae65b4585d3aa31ff6e80 0xf18dcb5fe10e0551ce48b0001bff5c3588a74511124a00e5b9a719329a14920ff923ce8aed3a39ef40b70fa9abbbb5764c5585f93a1861e785df7b80aafe9e5dab 0xb3e49b6748cb4cb32a16a33dd4fcb307e29994fae208fb3e1c2e6bd68d668ee3547499792cca38f84288f0263e990092404b7be23ece81fb4749b214b7ca3dec0e 0x0 (-0x33101288e5846a5e298c428eec872e55eb52a0313eaee76543ca82273c8a68d834085f31dea61da011a89af33c247474c67dd18f5d215b172d2ee51ad65547d6ac3) 0x15e76ab59fac11cc5c491edc3fff46e345b89935d5b97735fbb15e16db192bcaddaaec7b750c77de74fd2ebfe25ecafa376cc53e1e4649c062afaa28583f25df7b 0x2535581db91ad94baa5670c55ce099189fc573bc67a02c92aa06a4c94d6e89450aa512e20ddf394254ae3f459259c80ce9c42bebc23233d4395917e15e2fe8efe3;
Dbl 0x52c0ee4453195c5a5adb68f864a695f4a17da67601f292daeb1d3df9d884b02c6a915ed65da278123611b626f395740de0fcaab4839ea3eeb53025efc937477069 0x1645dfef1da97265eae22a2f6a5bfb1acc6e1015721d258c98ece39466d725f4f615a8fce8c89191df98f21fd78a69b50195ee6de5e13bde073daa72ebc797ee80d 0x8095ffd2856063ce6f6aec1313466ec4183fce67f4b1246df8d300b7c6f2380828d1f51a60f0ad7fbe95cbc0199163a1365a62de6c92e3daee4697804882470cad 0x16a952357603e238bfb5c685f51b9dcd3e33ee8fc7004045cd040f3ee9ddf5e671e698343ecba4492f7091c0ef2535c331b263acdd7addd05e76adea4edb8808672 0x1 (-0xacdcd4d4684d62d4b382484ac6966d8dac732485ae6e798d9f181410b66db89b34dc1573fd0d56e0a96a899090e366e2dcb2c4f647d746352b00ac382de6a1b649) 0xd60150504be00f9e8f3aed94958339512bc23fc465d470749bf4362ac66a8a4c414f0312633008abb26afb265c61afcd7f97f7abd2fb7648349567cf233e3b9fc 0x3a9a8351f5437d40174da197ee00cb918cd09c5f61a2f9436dfe6f00097fe5ca7bfc033583c1c25a18d37ef1e9a9adae0f310b1a3a39b462506f1f94b0d1be6596;
Dbl 0x178bbf3a45a5fd3ecaa72f08d9d8503449df6670805d992ffe0f64ac586ac1a282eef378b7293e46d240d3e168c17ca763a8b6dd1467c0f7a820223f81ee3d5306 0x79a8869ed0cab81248882ab15c54bf05f569d9efdf938b503fc54759af8944204a55ecaeac4a051c2d32e27facb3a51e7dfcd9db5cf96f106241872e36910d714 0x12577524d58f256c82e159b9f4c3b85ab219a24ac8a4d456d2eeeca6379a807c4814d8e405d38486de8735bfcd6cb664a03da53a556b51ee1761f5995bf361ce52a 0x15cc37687ed8a7add899a204b8ffa65bc678a63b823d920148ad1e4d0d279cb0d5cb53103a1c478cc36bbf3d57ddb60fe317f1940a84426ef6db68ebbd9106e10f9 0x0 (-0x2dc4cabe2d23b20d760bd1ae55d0bebd6a076c0afd4f3014c4a0be9e017c121ce0fb628c4809dc6176471fc75000b231f094ebc153fcc59714edda5058f48941424) 0x1153452d851bb79ce53ba7f1eb33d9b4f7b58a4a6ea19a8e36896b06a5bede82766d358180956fbd56653c597a6cfcac37e02a7fe298c53ce256e1b408845c30a 0x1009f92665604118c072934da6c9c810e4b2b30dc17d67ed491d24154afe4a22da2406620218ed61d13724d036b9adf17a3f2cac11eb36f46988fc3c231cf9d101;
Dbl 0x13a1964f7211c44837b9f597bc2ffbfa0d873369af79bd8d48aaf35e86077b7e2e1f5f2d3c1e4271a8380e609f058a8177e8607431d05ebfdedc220fd123dcbc0ab 0xd7918b7555ad8e24b498a44993ded253717b6635cb873d06353d6df218960e906d3baf65546edfe5ece3d90dee555bd31fbf8f9681875c0190f43e7556bd385e53 0x2ae423442e356e7bbf7102ceb5658327404348eb04ee7f9386162a249612a7f5a789a19867993f6687bc1d77c11d5513d7075a0a36fa9fa1db776f9146553287b 0x13008fcf4975f1d5c6fefde6181e6799ceddb37693271fbaecebee683826285b19769af659655c06bd5ef551a0c75de7ec8203e0734483aef752fd9fd8cabd878c0 0x1 0x167babe3a843d6c351e1de2ca7b1d14ffdde2757d8f71a8b7c3db7ff17b242e315d6bc21ab20e19d966732c2f05385ec91e0b651a819f180e16cc027976e6a2a691 0xc0b127198ea7e80375a623dc8a73892afda4645c44cc807ba8ec0cd5bb1e9c85cfa44692a0a74e4bc4c43c4ea26297024fbc6599d9b41dd69a6b4b8914f1271a42 0xba849786dc2de43118383086cd544d7e8e041ea15fcb8148020febdd7abc0cacdac0be9e84fba8c8c091af4b866c6eb339d85271482bca371931fd9a0cf7076565;
Dbl 0x795913dba8721db56c3b020a58b106b01f2400f82dcfa93a4c28416101e4c8e02807e9ea4cef2e6e2032609b4c21bbc97cf243ea09b611d9e845b983a9c6242604 0x1c052b4a72992596244e9a8fb3c391809c5847e3a43153fb3b2e7716c3cd5b5bf5730556ff9c806b492ff2282dbed24edf7d208fe085bb4d523dbeeb421cfd387ad 0x3b0f78e5ee62bcaf82fb373fe835fa7fddbf46b97612da300d6ef46dcd5cf032964ae4fe0cf15fb6d7e81d38d1f054a1c65a5e32a1c925b6dae49b344e59d9ae12 0x1173ed6ce2c1b34c26faefb4e57a5ba49abf6e7fb8871fd528255fc85dbc058d1160b59f55aa6d93159e4b68b126836e527ed8698792ba72c6d184fc134ed64d6a5 0x1 (-0x10f03646897ab08219a8db33de820a782f85928ade2cf9fafd9d4d9b4489eb877df235c5df0365e390fe6c97e4f7be28d5498a6815106965f3b06abbcc3a2029b20) 0x1cc2a9e23ac0ab745d7962a4dcb03e4d1386d7329b66b52222ad2bf25657ec21d0cb5860967642bcb6283db336709d2696004c7adf30061ae876a5659e637f1443 0x422eef04b27b7c32fb935989460c6bd50933858b710b7fdd16dfbddf102a082748b7f427c4020142125c1e8ee93f7f79f64d8a05912d6bf3556172cb334488fdf9;
Dbl 0x86f49c0c80742fe8da5dda42ba484304c0d104c5f32f9c5d14d60ad3ae990cacdace2d0d66e860cec38159a42624e80eec4d5ec35089d66b6ce3135a27f0fb6b64 0x1e395eac1715267267ac07399315cb9a3bcc0b66594f0600d2728338efb56b8bdf5a837641c0a2a5f1f21c78cd331db3e3dbbfa0fd9603079479f3034247a56433e 0x2b96c16ecadd33d50b0bbf9ea379802339532af80c351c09159e9d0b911fc603e2be6c1a98670f740ccbb7be483c3b494cb6002a034cde7dfbe9ee22d1897f04b2 0x1dcbcc9e5b83ff23bca2935620adc5e6608c3c7d4ae24dfa68bbf3ddd417efd0161881e0bddbddc5573dd5af608bb49afba160eee2efb845bdc3cbe7ffd557d446e 0x1 (-0x47a8fd47a0c244fe30bdf544063e1cb1670549ed9da49ca85c67b98306104cd0bf09e42a5cdb5b89cd88c4a57a23e2adae502fd29898e3cc95d1b5250a5219d4958) 0x23927e8b76b6de667f1b980089afce3ee251cd6e60f01c26a42085d76462cebe68d71879e986155cd3161fdbf281b0317eae0dcfa2ad762dbdf74033a8d6d89388 0x7da92c1c803ea640353898a494063a46fdd61b3a49c6d79cbd17867004c9150c8ca971399f073b3174efd9980602295f0e8368966b1f024a9ec8ca1ab3eaf5fdcc;
Dbl 0x1a7cc02f6a62e5a50664f8efd7be5ef15d3e9e2430d41e97c7adc5dc9eb0f6c6f6ed4aa8f076fd7653b9d0e1157e759f8a4a0bbe7137efe160700d1e1e3dafa2023 0x8393ea967c1a73a39e3f97565d9b5a5216c1b865c669336a7cd962eac71689858fb3f630142c69bc9e77cf1258e190bc9fa2ad0453e4c65e75d7ba67b2dca5c86f 0x61533bec76a7fbfc742f143cd6c15f7644735958e06fadce988ebaa43d02968a4b5d52213e1be61adb28a4e2bd3f3d34ac3ff8e52dbe248173a8e4af6b6ea73eba 0x16002002af537f382dc80dc42d3c15f51a5fefdffce872ca2aa4ed0a434402f3865f4413407ddc0a280a9f87a7a504a819e194d0b857b6a1ad1c775cc719db07acf 0x0 (-0x51215bb3032f00be0b07ba554dc834dd20feee33850182ba6e4631d18e6fdfdc0bc5450207301613283280e6c1463d46bb7efced95ddc9bfeb56b86b3a2a79b3fa3) 0x15ec9ea2fe9276849144e797c2601557086d52653019e7d5ca9a71e97241f2c86b0a335f37646c30c70af5a92b63e2f7e7cd65c44aed721acf8dd9358cb6ced8a22 0x1235de9f923ec31e63f31ac7f49d6e79f293f6ca3b1f79008178857d3659db1bf3e5bbb1127b378344ee02f8aa028715f4efd6059ff8ec6fb9bfa818f852585991f;
Dbl 0x826b1229ab380165cb1dfdcfa47882b42f2739b52307008d2e5c00d0108a9824f5902fb4fe5bccf176d37a216e84eb7c0299203e45e4cea21d6bde5916f8d2859 0x1d83a21efba413b06bf03437c286ffc588bebd3d4bafd21e802ccea99d32bb88a8a3713bcd6840458e2e36ec60985eab4f31dc89875e3a66ecc44b3f23919fec274 0x10129f6bef363b0d362a014eab6bb296d4b45b0acd9b9cfbc6e0729dac2badbe83d4657efa14eaa0320ef1999b91711da7de9b28f5b2502acc5d9afa45c16355e69 0xab59c8a6c1d9389cdf3c53da352b5df98ad5e4910b6c11827a0c7850f3ead0fb057ce2733da86563bb94604c4f5ba607ac84e46bde011fefa993067579c2a705fa 0x1 (-0x6257c3c1e717f1e5f5ecf53412935a6a016e306b78d29523d95edb1b027071d68bc637ce4eb52d6c50f2ca37a61097b74f18cfcdd6458ef005648a11f74cbcdcf4) 0x2138759d4101f28c5c04711177e7a1b13b6ef1201e913120e1af71d60ed99840007182334e2502b3f7010e282636ccb48431af0b9f17d6b17c0c1bfa2ce46461 0x2ba5a149e01d533db4694fd5035a444424069ebbc8da5f381979b7b468791c6372dcb1993db9a2cd4db7d9cbea5110f6e7ed49c1413e3832ed4fecfd90f2a7939;
Dbl 0x44d47192ab8d6f6ff2f9774051808abafe67b7d70645184f480185794f678e52cb9a2e648ae5373bfaf3bc384b8431048536b974b3e1f29806278f17764cedc158 0x155b57f2c328fa4c10b1be3c9ba102522916d469252af1641eb3d3bc6deca68ec32f9d8c43d8d8b7b4f181fb048bb30b75be21aef25600ea3c3fdf7681d6debbcf6 0xb7dee00502edb69f81a023c978e5aa96e603b914210c8fc47953fe15e4219cd0d4d3ad8e54c03f5cc5948d92862d48d29f4426deb740593ce0599e10e59ea96c94 0x8284a2c387b19645b3e75fb26e5fd735fa7e8d42684e0ba6178faed2f4614f9e573d3af898f678dd93cb4f15c0cab9fd973bada9508397cb0846bc8a1bac13057e 0x0 (-0x4d57d11212af2c4da1cbf0b6c8fafbbb580e59afd14aa5c0eb561b28894d3800b2c0ab13f8ca0cf766823513e1317716d9ae34f0cd690e6ce43a1e798fb95c92c83) 0x940c6511c390a77839492de4709a2d7e40588a3053a27865030d7cd16a3f0b4c109886fa4bbe4d97443c6b0c83dff58926536219bb87d1637fc0537d3d2f3739e 0x118bc57d0675b0fd49b518d51169947252ab121288b5c54d35ec8183aae718932a1445a4bc709baf759578e62a13563bf328a2172122a6514c620691b2b98ae9ad;
Dbl 0xe3593282a3f0f054d8f6a72909aea370461d44ea09ff23901fcbe71c8166263600602c4839b423d7785cf4fdfa72f9c847d0bac1840785d94a657f785fcc684110 0x10b249c84e7b2dbafadeac6e04ab902a7c95c2b736fa292489e8db772c1f588fbb66d0e654fdbd8e9b01bf6e6b517ad4aba6fb2b6633505c98b28904911200ad609 0x8c1df0dfd67eab7ad39a0c55567fa11b87dce0b2e435885013f172bad607b4e9762e1e095a3e92c99a89f1a059bacd8b95ac01d1a5bfc36a572cbc039029de2306 0x4a90e2a74adcc9115d311ce96f57227ac8111b1ee30c83f94caf84541cd4dff07c8cca5eedb1b2919efc28c993a3836ca1726838c22b08da38d5671f0c4de0e6ed 0x0 (-0x208e0d6cd8b8913dad9c76f6db1f1b7b09085f00e63d68b6bcfa20715b7d95be80bf8c94499395c3de993cdffd2beb1bf3728b1692fb1f57ddac5a124a41d360557) 0x64f3a753ebc549394dab1bd7a1412c8108086d2fe3289c3fe69d46866dad4651793985a87cd3de709c4b5d28486dd4f7a06a516fec50ff4d90e1097d458e592ef5 0x211c3a07be9180627e64c07c3e6ae114c62ab253ee8e8c95e66183dc28f3554a4dcd30de205402e00ac4436ebcccf363381e305e58ba78699632af5e95238ef3ca;
Dbl 0xfdf4388aeae58907a6f8971624ad6bc73ebe771321a1e6a016c7029219a4a75df074926944fdb687c327d205d754f77fb8c9ca18753d3ce482f2f565834bd711d8 0x102303bd08332c5a9a8d6456267c352a3a0c168b5970f593d363ef406cb0e8c80a89ea9fbdaf78fcdc38ad321fadeb86a3aeff556d0c63062fa1206ea28cd7bbb6a 0xcc218e787e776cbd3bfff742beba373b244cbf0d6d96e667c2b135dfc275b332279d17b8b7f66ae119b8264577ef8024f6b12fcca8bc1a1b47bf911f73e680d0f9 0x8f460b4648016060514817de2f5b004289ac2bdd893390b684ec36bf6e6fc7b0dce646974e4491bec9123c4ba38f4e07f7fbd5f926ed5669116895ee8528f1a9f 0x0 (-0x11728d30d0eda502987bc9fc7657746f80161439a42f864d5ac5d7bfc259e69c8dadeed3ecced4ddc8a69b630a9d14009d233e2f8e7a697ce3443f769217ca0c130) 0x7df6505f34cb44466cc8930f7d8cd1b60c69b1e52103c7a14869fc68c8691ebbda77ad24f7bb164cbb667e928fad9dde5de43a113e13d2721d730f10178383013c 0x471073c622eaf6eca104f04109d92711e59fa6cd208c910d45247a63d8bd8d51cd40925496178711cd693141ddc5e92043c04debe78c6883686e40429f652eed7;
Dbl 0x1cc212793ae24a7ddd01eff9b81cbb769f59f6ac2cae15c3fa72e42357482014b4704aecf5c0eb4a4c1716b189294f053df416f815398d074601c4f1f901812a7e8 0x14f6480d486bbf588daa1e05703d20a16689152cf1690d7e00d62531449ac806cb8d4ee71c7da5fe623253193ef15fcd3c6c16eabd8608e6b5c6287bbca1236bec1 0xc739a28761a6760430a535529dac5901927d338b4bdb8e13cd80d654962c8c3421387422a7ab4b1dfb97358d7d89caf63a562f4a46023ebdf837f70ab3fe2753e3 0x1b2cbbafbfc76d020ce34650b63f1488d383015e6807e815d28dca0f281620c13efc9bb8a131d2fe7a065a18e0bc8bb96742e86aaf865a1f79daf7f2e5ebb44fca8 0x1 (-0x17b12697674fdefde111f04f22de36b6b40e9867a48205208a8fa3f5c4a8ddba681445f8a0a084bdef5b0313fcdbd84863ed07c44afeb0f0726d3cf2f9bdf389a7) 0x19d839542fa027a7c8569a31630b328daf71f976faa1dbeac448da892e83ae1279adbb946b4c91e1b556e6c7011a00d751d7307ba1699afdc22897afa44226db355 0x186bf31bbe02f432686063cf2cd2cefbdbfc24ada1209fdd3b5f331db027c8d48ca8941958c5611b824bf74fbb45c6549f3377753bc7ac48eafc7903f1aa981949c;
Dbl 0x1df62495484da500443022c6fafa1e04913dcb62a91538ef7a876a6203500084737fcca30afa1038795ad9cfe546700b781204de2f997fe3b828134f5f22316eaab 0x19f3195776e7ce980e1fffc98c71a7fac87538c9f700e9cd47a9815987deb759db45e53f86d49724f86a7e39d7d1ca4c4e28aeebec9138fedd21e226a938f1ef579 0x1ef4b37d5e09bc42bebeb6d831fd1964b92ef0bd8d48eadf9369b30214cfd748c721413193b571c3c5e56aa5963818f21d0561d18f2855619d0ccab7b37e33cdcbd 0x1b032eb5d183f0c07f8a1e3be3cb78a69e13dc62fa6823b0b92ca3d7bcbc10acf04769a795a90ed969c7d4df671f9580ee4367fed0f4cfe7d8a446551368317c947 0x1 (-0x11e0af4b4f20e34f803efacdb88b1f88694d218436fed8c16afab43487b2e9438f9a57dc24211786aea966e56b67f34f78d24f7ff608bbcff490b64a89f683be4c2) 0x1c0d87a13416fff2095ef1ed3fa7310189291b3bf6f5dfaa494841982ccb4f70adef625c5741a05276e373de6141d165b57d3c32e995de2e6defe6ba2a3c50b64c2 0x194aa9ad7400f6cf57ed19dc76a2cae6b7daafec36d04c7fb67f7e053d583d754fb9703c1f92d7e52cc2303d9e1008ed1079f4a56a5910fbdcbf094b600916bd833;
Dbl 0xda86b3c75b3395a6c58dc06d898e62cffb09f1264de1c70f2d3b747f6bd607c13588f1868d8dc33afab598b651ba1b03debc865a1d4d9f92cd3335b9c87269a48f 0xafc1b1ac19fe54bd699e613c3226b2fd87f88b1cecd47dd4916b23eed8a74bfd772c4167f8813abd6b3e343aca603fe8e0f97b8cab3f3f499db854567b979551ee 0xc9058ab973a246d66502cbce1c921ecca25407a9a02ad9609f7d4e90e630d68179f44ac91276cae6cb9d1e0eb35a197805bd0829247266cd9b12bcafbb43b4df17 0xef6fe3cb547e94c378619b5c94f3ccaeff5b0182833a1effe92cf1a9a54429a03d32129074c837921b69af62b2bc64dc019173321dd450a43465ce1417f789a38b 0x0 (-0x24b48078f03a1968ea778a3c0375c814cc343f95f46495c6ca260ade6abf29257803d51cc2e2287d82861a035c6b82cba4c75ef924c67ce05f84f18cc965aa44996) 0x5d44d8881d23dcd4e081ea3a7366f2f37e4663aaafbb84aa3ab2ec040277f9eb5a8dc3ba15a716ca81d451fe25c7b81717dbfce8cae86fb29d2f591c0af2bdb4ff 0x6631a25909f824a7a35901c46fae3d867884cc661e39f49ba2b0b1abf4b5815c3b80f2cfbb2a7b337daa5a363e81369f96c1729540870e2a77aadd8d1bba47552f;
Dbl 0xe23dae4d13a69a2a540bbcd133e3fae3d6e4e432c1b6aba1e36db857f4c0b9a45a7a99674d38baa5b9b8902980f4ca43c4f80694f20f3bab3d7619dd3cb9783a45 0xb0c231d360d31186563c500addac54b512095c33e1fada1ce997c67b87390db0771c0bffa7930644f08379e46ca0ebc3bd0e1f6a1f7692de6961b51bb04bee80d7 0x14a899c6d9f1e4bff57f3a3fd63db2c0e26e55c8d2d6a5de0fd69be8f2d52e46eb988e9da731938c3e3062f6084763dc2a0c0c0678064dd220a0628929839bcab2f 0x1feff7fd8b92b433713621131547a5e4875ef2ee90ad9a3b7a7d35d73516e3e4d0010356850ee34787ababa565dbf542523eb5c228bc8ac6b34569f3acb4ba6d116 0x1 (-0x3584189f1dbb2f287f3ea17433869a7eb03300c07fbda43b0c1057c429b45bdf25ab3b3d3ae7dda75bec5ce13d94a10ed430ba1dcd50137fe1dc8610f2059429d) 0x63f87b4e4f0d31c1c0ee9aff39a175b059e9d7cd2db91db1c600a73c5d5fbc5a7fa419cea7d809415a1929098a2a517babc714937b121688eec98e59a11325ce1a 0xe1cc56d5268a4b4a74e5de8c8429c1eedee3ebad4f77fdc1544d4b385c391b23013b13d6e26edf4ac7b45370d2c190358bddff5f0b79176eebe6f257f165cc3358;
Dbl 0x90a4dc68639ea7923a8f8a61a531008a9b358624fe9359ce0b17eeff3bcf197968502bd51e8557239a869a3525183b523c37173114f85c4d2323547d3b798cc8fc 0x1f746f9c2d24988fe683df8d236d5311f544e55494935d8be40da5ca04ff6d1589d94faee53a6679dceb4a43aadbeced5e01edd5d969d2a24378f33504dedb74cb1 0x17c3c1e105518739dcc02d8d55b20961bf1fde0440e539322f353276d708bb411bd2c452f05bda955493e3f4a98661e3c78552291cef0b8faf04d0d9475fb2327cd 0xb97b38108e898887edfe5738a6d72395bdbb06ea98c5015ea8bd69db37423c57d987111153ec9ea721ced5a9bee21ceddcef420c88d968ba31d281cb625e373425 0x1 0x3b0e0ff9de371d344d678641decd14c07d141acc4be817678f00b07e790ebdef666b15aab4ce3e4b651292affa79cc27396bf1030214981b9f4019a353f80a928 0x28dcf11049cadaca7e760b7de8733a65c37412eefa2991176f55b65d15d7af2a249c11a494ec5adf23140f399e68bccc4e3353f45a3841ee44c85c681bdc29964f 0x346661156099a4222de2d4d30a7f55d90ec5eee6f50abb1744244ddf3f6aaa5d70450491a76c4c667a49fe47559bb2dec7832361c5fc60cf6325e66541548f9690;
Dbl 0x121a9b14710bcd74511d0e031e010dd78822e0a5a9b9f0a8dd2dcb4220e335943c18fcf12798e20a9f7aa6d60cfe8e8b3d5cf285d8d5e33da26bf41092cbfd2da6c 0x308be032fef92da0ea627036d3b960ebba293401d28ce5ad859219cee630277200e263fe27088d7c56ea0453e480218c94789e8dc4ee755906fd0261287468e327 0xce31efa39b78235b3f001cf3e81b6d0b43c2e67c9452c589810f60a2db9c21342587b7f183d7db7ad5c3b7560ebfc9a31ed6d75d4c3f789f6c7ab52e739daf8d6d 0x1c6bb198fd3505b5d7ddb889b631bd0339a25214776a8f310bb4842d169c6a9e69cb296f02c9dda2177ca9fe6c93ead494ba63ecfd1aeb4cb309230ef25794e698a 0x0 (-0x41de012ce49b4280c80c08f8543709b43a3d7f676099f0c63a1d9418e32e77e1f89aff5e08c7de31327c9d04054e494b173d87260d5c9acdced7f37c9a395b001d8) 0xa3e0495eff30e81ecb7818906d294d978a284776a52e023ab113e029dc64c7b43b3afa0a612939cfb82cff564e03613094ad1de35d53dea116b4fe050c144b5ef9 0x1014352226ae5f0484dd09e0026657075fc3f4364ca49699a10c9a3f533bb34380ae545d423d161aff6e28e0800f383597744859c629b222ef8effef5051caaab02;
Dbl 0x19255b29e798fef579794718f0349b626e12e7781d7cf93ede97fc093492c7a14fee3ea3e1d35800e3ffd3f4abc12f219ef21dce99745fdb587110cc8a7872f48f7 0xffba9e2ee7fc3a693a3fa10b38a2a97512ab6457928a39806b48e75c318161e951af72b4a169e1c843e5ec0719654112664652847e88086fba04e8dc9fbcb97ccc 0x1c1194b06a2f3fa781751e2c83261282e7ee32aa363cab770f32367141f6c2b4160541d8b6d07c90736a256e7e864ecc9f187c3f3dd4ae9e52c3b96e7c33b70d15f 0x130d1420416fcf337b022cf2b9b16b776a77dcfaa4002ac2d1a493272b4aec588af32f149859eabb41304184ccb1ae07a2e324c0946666ce94cf8198488b7af665a 0x1 0x1364050014fcd0e540df4c63cb4cf1bf6f99b40e4a91f80827bd687d612fe445366c7cc5a6014e0e789f77b26d0767104b6403b4223714a4bdea6a0bb6c2764577a 0x13c28a0d4e7d2c4353c39bea814ae89279e71339f06d6c4bf636d44b48210493ae098b1e6ec762c7c1a2a89bfdd7ffc9fc49a1204b7e8c1c24ad0af94fe440d64c9 0xef8751e9c4a05c3fde58677a46671d49aa98d54d3a46835c3b7d5c96b64ba8c3157b61593f87e6d9fc9524dd3ad8d0323b6c8e08624d1ea1cf18d575c109954df6;
Dbl 0x74eb187f56e708c2585661ecb0924bea091a24b15f877b857b5a52d680cc4ebad70c66cc54f391d0a07d121914a4b989fceca9ad9661b6b73be831fff24f6d87e2 0x19ba4da95649633a6005d1d91db6e9be88663892b7d900b74b6ca6583377f67341c8e736c0e7539de5f710a08a7d68864ca81cf16fdd1eaa52dad8f0fe4c4e24c8d 0x15ee9b121a16ce4ad4912f07c5534017e000f98acd90707b5181934b7ed7a6616904f0b5ae2ae9109c57ac186845c213ab4873b4f53d0316874cdae7a975c319d97 0x16415c399836606c339e283795d340d8c8c47db2c14fa2e0bb47e81d8fa01fab53520ff4892f4a7e9e474e1fe718eb8ad9bc4836d80b61dca8c5759ccbaf7d7303e 0x1 (-0xb2141390e42081555c57d9374d752bd4c8956fad930352a09cd0f538a2639ecf488515afb2b0e4855a883bb996b94554cb1ae99b6fe4d4b2c1a53ca50129df160f) 0x1ab2f30cb17185de6e9dd18ec1823d0a9f4fa236daeef868c69876f8a9acc984b9246cbd4ced77dec89acfe9dc40242127f5c06d82094438a79a6edd21c3c122a1 0x51506f57a3bc795d3f6a77a8847f39c8e20dde43b138d410e0381e1bf248d575540f1ebd21ec76285a8048d2538fa7b49cc6c8e115afe9ea71a499c17aa4d3263a;
Dbl 0x1400eea167e10e7023ebcc849dada133c21bdff52cf94a9b20e23ebd45f37690f24a39db295702b744bc4e34f2288734809c6168f2155cc55c807fd0a0c64ad3666 0xd77f63d331c4ecd52a7cbd7f3a027d18ee711ddfe3f79a86a3ff6fe73c50c67fe11f14dedb8783d25aba7334ad66782f6c63161619365983c7f4d3bcb3e588a775 0xff4bd0668e1e6846bfb491b05f6d4ee55c79bb33dc994649cfc6f9bcdc7c79261d3bcfa6722d307ee91d175313116e0d6b66e4ce3de7c35c02f463a32bcb49037b 0xc42576c232d146d0d5e06012a16c1ecf97f26b4b999870ee12caf59bfb2ea0b43b6f5e8d32edb60c04b696d3fa7010355e1eb900e49b912165b8bb5330df59a518 0x0 (-0x22a2790f48e1dd07ac8de7a33f0a12863f958c75df4f4818bcaed5f516b215d4c56d76fb70b77958d9fc0525525eb0d2302690070d7f0f84f6201c0f095e493375c) 0xc812a50b55d695e7d831a27b2c26a55c18032bd29cbb2001549c32e2a00ee1f355c74a4306d00f7cd8887ffe6201f0e2b00ad710b88c74a2f51641033b2de20feb 0x7a9d20ed5c40bd728d93996c4868d1990e873ef52be5e61de604735c6944262a5cd93ae8c3f209e7a06cf44c763c8d12a25b5dd57880c50d028b3e07fb4fb7c982;
Dbl 0x1f642cafc300b843733679e3745ae9182932cb4d8b395ef774142b5017acf053fb24dde07414718f77ed4052d1300b98fbe24a118dd23503b99fed9db0544a345ca 0x1395b8471dd97c654cc7278c60b1fdeb6f0f8e2bb92ae6d50a475b5618b30eaa4445a778c67ec9b442023f041ff594c614e2bd3d26b67326c7be7bfc99fbdec6efb 0xd3b3e25fdbd227a86f6a18640aa382a806defe063fda33b39f09573381294349a0519293a499a5d5cc02340f86ef94c5fd13dc4aa38bed7eee115a81123e959ca8 0x19e23df61542d26805e0a44b92ee29e61fd783b2451492d35ff89ba85b11fdbdb9cc49d52739ae88e3a9682f2ae0d2bce1e374243adcf27174c0d13f314279c3879 0x1 0xe4c67108be0243b932eefb6fbe1bc6a380dfa082a27c95e3ada480c635456744f1530bcf2ac7b516c2ef9b801a6c16aad9c3ebcf9c5130649272e2042311d1c64c 0x1ecb502c12bb4725cbb344eea33e2c34f0e5d51e5ca7b92388ec0a22a63b29b51bfdeab22d4d864e79d2c8c7427bf02e531ddced2c62dcc8dc38ec3c7ee46bb3a81 0x1964332d45cba245763ab4d2ab77955af61212c3797cb22bb07b17de9f002409e72a47d6e6e892af6af9d23e34d1e717b9a8f7c6ae330c12516dc3392d4945673a9;
Dbl 0x156d36a5c12862abcff3f97dd24daca3922f922515e80a90e1f1e53e1e27bf60bec036dd517191393c7e0a34d2795c73e0715bbc915a91cef0c2579a7abe353e15f 0xdaa82fd7fbd31a6f2fa131ea2135ae7bebc2fd66e44db635786300a32fc5d6363d6be70c098cecec62b469884dd7e7b5d55568005c7ba3a1a6e3169760d3a4d912 0xb3c220ab3a81354f606d1a845b3059f588e9436e30d958521139e88760ffc8eb05733cc11a70dd871c87881678934a09b72865157a4ea0abe1280d69100deb4b3 0x5eb35499e1c4abe59cd146dbe9ea303b0535e554ae60b71b2c12b4be5b6b146e06ee90805e5fae57bd6f86b9b18164ab78d66bd20eeb8ecad504a9323eea4795e9 0x0 (-0x123d83a3c87a1ddfd9e41aaf193d8a57091d281e1b544568dfafaf41b70537b4801863ce7e79ba7dffcc90f98bc83890687e12ec7596a0f34ab7fb756c2aeab9668) 0xe58cc76340bab1e7ed5a861156af2ad44363578fdf73d24fbcfb01e3d418cd12bf86822954b8f18a966eb8861ef808540382e5f4d9028f1d4544d1468beb7b95c7 0x3f68e4164f631793b8031ba189a0272276f40f9d81b5c50d267007270bf514e698ddfde67e5ffd4e2ad64fd6e615f0c68f73d43d1e453243d5e707d59b2e96e6e4;
Dbl 0x7fc9c2cf845267711a8823292d17dd65c7c926ff644d9a9cbd5742698e52c45498ab0a7b1077e5f8e5d45a45acc9c4cde55aa5d0a097de398eb38159cf64d4103c 0x1b2d83946cc6a58eaa5d6f9d2a9e553f3164942b53fcf9d919e18ffee0265bb2ef954b471b7cc8596fcc4af9e6a90f76d96cdf619f0dc09fb31293385edb0596774 0xbb27a10be2b9685de69167e33e388daa83c47b05fda30e7ac3b1d83a9eaa8e4f5ce1a60a44541186517c08bc5735b5b29262cd7b320caed19da1d2daecdf8aa88f 0x127cff6912f68c18489ca381777505a88d579bab1a47e18a3da4a00b52d601b074417329a51c0675565efb9e9e346f0483e8771e66b9f99a675b9e31173234b719d 0x1 (-0x11288a0514d34e9773ecfaed9c933a4545409d858ae51ac45b09f9a92f080dc80c4da5b2d8bccc4c32d624a7624596e1052b579a33d2f7daa72c6eb3d25d614841f) 0x1fe4e726b1b35c66672f437e303bad6f5b279bdf12953ca451577fd163138853b5ecf51fe5e32aa7083ee234e4c37092460ff722c8ef3e7b6300f65f4d933b8b88 0x49d4a75b00b604ed4f3126eb3ea71076ca487e1e2338cc9369a8f949b78739ee16a0ed44a52d95d2e108d7b63632f379dbf431eb58cb6a3360b944427e799cec76;
Dbl 0x1bc5c5a6805d03cfff70a9d79ddcb8cc145f3fd19ce65d26b1c11f94970bb6ab51954595799db9942c0076fe0d0db7e6e7b9471d830b9f8c6686596af0a51deecd4 0x11b497282c4bb5abd9e191b90b534ae3d018d3df414faf419fd270a5d8fc902355cab15feb705e6ae2a2ffd2583ebe4e27b7b4459a48deb80194ac7cf5e23e6c204 0x18a780d8ba986cd2952f9da00393cb37b9293763ddbb22228d1bf24d2f13a80efd7eb843186291285581c6a586eb1a2d82ce1fec69b17b6532fd2232ae08c7267f4 0x978ec6c407aefe2d07bdde41f4b0a5b614bc04c12ad4a977a0f1f590729cb8f99ca99e7300c69ee8d294b278e6a5128b1b52b1c04c4e1e7b17de6bb68f8c72a570 0x0 (-0x30f168598a99c8c35ff4fd079aed35bbb8657043c5f5bcea837f05e12522e82ead665b7a09ec028856dbc50abe46fe309c880ee60ada887f637f9d40e0af10f2f2b) 0x181a83d74f76de7cf6e8edba8a335fa5250fcc96e9baf2e779086fc89cb355b9887ddfcf42099ab584294877a6c38de9ea028f4bdf9eb6625c5855baeabc1d2015c 0x838926c8998c800834c567c2eb5ecc484ed430f2e8d372e6585e4761417df52a997fbf14f0af1c9386a905187a5d6eb79c7d52b689320b9f423f58694f8568cfc3;
Dbl 0x1744a2671a11b7a16cba4952fae2b3bf442186a49589b5e5423bf34f0be2b27900f800c3c2497eed604e33baa528a4c5732d7d5f501b328aa0b008caa1061bfd337 0x39963d8d94ea9058bff60ed3b8464f0731a745abbb06d26bb70d93055c2bc15e9d484a9fad3f1f26a3ad88ee68d1bb0b5bc43915e34e5eb96f0fc6c549c4c762bc 0xab9bb349dde746bf4b7b425421909a162148d241a0126e11a7fcb39f45d3c41e2d581493507ce48459b30aec550d25bedf3baf2ae6c85cf8124608ac087b67b298 0xe1b334f52fd0ca64de230cbcfcee5f35cfe5f84859f421ae46197758339d40d6bf62cb5f09c6c787868274371b1a29d71fb70b43c13f8cc6aa3b010a145f1f5f48 0x0 0x676f814054d2b4fb6e6eb90f4f41bb69c73814a0eceae725daa610bbb20b1cf471efc8f948f56559f17842abe270369729aba2c6a9d9647e86eae5abfbe8114d55 0x10eb3ca9a3dd7767c4e7415e88e40f3c3896f9fb42a4132785407ba86076a1fa88341ad436261d3702d24b2fca2ab27e0a505af62e7e11fda397f5c0359843f30f3 0xa41ce453302df5d03b21b4d0d2c4d3c0f07ad3c5c366559eda4277a95618ce67e9d79f539356c8f08e4c467908cce2720371af96106cf3cdc46fca421f5ddc4a14;
Dbl 0x44fdf446eeb0051f0a20a73348d1459ece607aa91df63d95e4345ae49e3e90e5edbd8c6aba8beea91cb84fef5d526b4ddf9654dc9cd68758126ba24da173e95d86 0x6493b7ee6baacdd14f84da47a9f07573bdb9d124fd4f9b32e8040de443fb2ab91b91b33ccb469e61fb112ca311c8f15492e89923fd09daf5228f45148da52d1421 0x1ca3860b232e2f1fddc1bfddff0f7fe1fbb7f41a742f20a94c05206ea559580edcb4fc571b7327e7a8ddc04fcd0256a1ecb5946d2ec149c5475b3af161f4be64122 0x1d502859f293fc2877071348c0e55d99373ed7486bdb73738cf098521183096a581b69762e1f880c4a89c5c4b5708c9b6c8db9ff1e64483c44c8081b0bc1f9a4e9a 0x1 0x1ad138dfe6dc4b92dd11e24157f09ec1229c5363f20261787d539dc1104c8390de1d50b58b0d880bdc8bf693f1ced3cb5e3deb751060ecec3d3e9892256214070d 0x94bf2d9360c4aa4c6a68c19221f95b65ab822e70efd1ca8785c0c3903dbf4556e2cd61af5ba76a2a87a5b30cbfcdcaecef86d9dc6ef60d412eaf4e1d36aa53775 0x3f32f742584be1ee836729551901e49fff6d65690eab48a037b215a97cffe06ca4a5cdfedfb7062f076f2494827d4f6f55065d2f935b46d839d612129975d0dd1e;
Dbl 0x1ed70fa3530c5aa3d3fc12db8faa0cad59bb1992312f9a1984da32d428e8a91a8c591d3b27dde5a59434e7e894dd9562b03412c7e9feb7056899e520a1bde152b89 0x98298ef458659df2ef805ed3aa0e3c747bb2bef5076c6da5e9776b7a928edd91236bcca278a1b63a6a90c26c69654dbbeb357f27cec71865967eaefe12155c337b 0x180de654c760f0622c9f2becff5032efe6929d56d57a75360e1f55a4c0b61d9811de07527fd206de77ad41cbae07953a4d672b109ca1972c6be3dd893935a79f8d 0x1cc6a28fa13452fde60047b73ffe238ff4207122ff5e32d8cfe8ca269b16c4d27f825e69a52a4e82790806a36a863a398a7b319fc2e42c28f8c1096167b8fd0e0a5 0x1 0x337f32f55373dfdbb1d3d071580fdab79877a9f229773a3c6643ab825efdd34a5e709626117b5470c206325bd03fbf92b61fd98508cf6bb74f1a67505cd9fa6625c 0x1db8e2ac66077f67a146454bd4aeb64e7e353cc4a5b0014e588753a4f7ebd2e0ae5488066a8549a05f24769b08b99785e8bd1d2655870a3138a5cee8b0597d50c6c 0x1bbb9d0ad6d1d62cc68bef33b4079891bccea87121b377e87677f76dba8102bd554d52b922834cb0c03c26e88a137a09ad079a7783b1c9ccfd363f1c3b7f180f162;
Dbl 0xe78e478454ab50e0c2b13c417cbce77ac2b3efb5f63848ed373c53d97c6bd695d9082c0403292db20b1b4e787b82edc065e34ca4fc70b4bed562203b3efd5ea29e 0x8176059dad24f35b0202d1c6eaf0feca0ee29ae3a6399431ac5865161d3c14b1c2845ee3947375e952c95f46e90ced75abc68d8b0f5fd16c8850e39fd1ea8dc4ae 0xc3de2a85103235e86022ec92aafe9605e0666eae1c5b63890d32555cfda9406e88ab1a91c9f9404b6d63fa36033ef9812f260a7f7d5d01c1d829fefca13ac6a96e 0x16b38956ab40aa97ed7d8d0cbf1d3daa6cd024116132d9743d1f06647552c8df60e76dbee42e405117c76325805860463f6ef19cbf6746f90e2dcb5e402ace6ecd 0x0 (-0x71e8277d57a972f2e7a8e54ec2f889e7f4324d93d30fca93ed06eda87647b6c0112135ec74d77c51f69e10ceac3521d9ce82c8f90c9ff2c72d80dc106e941caec4) 0x68b90a121dcae2b0e61e656e61c5b4afa600cfd759c836e221644f21a74470315f66ed34427d01620c76461525681a5eeea7995fe8cf8330565b31d305f5f1d220 0xa444f6d74e32613154b6119329bc5e24369f4b9993032f3725b2e7b1c2193bb77a902f0a3afd783c4a0eda35558d68a1e199a9e5926351d85cdadef361aa22c75;
Dbl 0xf1d7cd77e0f605df1978771aae575b2978d87335d0f1e717444c5bf84bb8f646e06326548dd8a94d721b12a5f76b452d8540e2309058c7ecae339149882eadb480 0x578de8b50e31dc2b1efeed69dd33fb0b08fabbcebba7a99eb142abb37d2c50f3803b47038986f0eb481d1eeb94dad19cb18dcd64f0464b230c2bad7686d90119ae 0x127d9a933b0636e78c685cf17eae768123b54ed0b21e981e51747a0d6b0a6e3e5ab8786eaa339974124487789a8258485277094fc36cf39bec8e10dc8a6054ed7a9 0x29e81ce89ef3172fe303e45d0dbd03bf05e7df14ea91ea92fb15b962a00fc3be424917e00aec84fe0aac405b54321bd8fa38c0261f1986497c2536294b118cab00 0x0 0x56d506b679793a201744342a10876b1ae94322430e1b44abc8a983d674da5f033dc8b827a8dfecb02cae641ffbad9c952b037d853e8ddee48ff43b545e58bc94c9 0x723c03633cea255c6d40e9c14ea581e270eb759fee7ac29e7187e8ccebf13a6d65232e8cde7d02c18736ee2c8315d13754cc872bf80a03945aa2710b6f39d8630a 0x13cb6b64e1efb6da3d850085fa5e9b34aac63f3456c67e453ae75f3f255163fc806921642a79d7ca93aea3394140bea6b137a96a74ef060ebeab8f5c9e02840117;
Dbl 0x74c1f4f599cf443733cdbecfdb5b69cd1d5d145aa8107ac1324f5193dfd0946314480f8eb73568246560c752d99fd566ca7ae68cb43f44a511a34a312e6135a472 0x172dfea7f28f0e4a66b3f4d85bae9d97733774bf584d4b738b8455759080a3e21440bbd1313d0ef31abc3e51b059504c41bd09b7877c6d36700d388e288cf34553b 0xab026a0b0842ac45bdf4b5eca1e8d4c9272ab9e8f773eebea5397ba89f0ab2b85f54d8c8934c5c741496193c31f2b2cd4f7a387b8b8e41c0e2a6b684558118ae5c 0xe4adfe35e540f784b3bf9fe4224a2193d5836fd936d2f265f8fd545a752212d23c2f89f075b601b99c5939d08f45ccd895bd31ec787f77bc0b582493fe09ccc472 0x1 0x5a04229b6e49910afbe0d0b9b4079adb04e960862b16d66b217f5f8be99f3e827bf550a1fb90bd62724b4b86f53408706bd006b9993efa2b273d1ee79d794bbc45 0x1aa02c78ec0d6c94dface274678f0ff995921772c6631cc1fae54b7d5056a97fe2b5ff0aee97bd9159de5dc17bbcf6ef97b82e64ff43b195eb4fd760c29c6045d3 0x34260c97265c0863ad2e254cd471e3e29c15720edf280c28c284cb15fa098d0ca468ec774d3d1a1c8ae05de48f9e383507b764749c6ee26f23a003eb441dc50341;
Dbl 0x1c412cf0b4b0782b3d589bdd9c488c3cd2afe8d411a8c425c70c4ebfa498401245971c75995f75045b759384fda217ce387fbc8f71514857ccceb8f981e4a547829 0x1292e25577782e527cd4b89a84a7daf139096ad6f33e1d69baa27ff3748434d667124a748c0fbe510aebd7c413ddf12a57046ad91732ae5ad96a01f0a1936b984a3 0x1fc85f03c614c3ea88c0f1d88179ae70e2c04e82314346279b32af1ee2faeb8b26d5f5b07e21f56cace67b99de5fea12b29f5a9b025fa3cef1578b130d2615c0331 0x49b1c527b16dff7e9df3c3dd706c2a63a2e09e8650f2e09d0e1d5821bfc6f0bad2e715ca52d50a20fd0668d9c7b5f21eab89ede7049bedb96a3369d86f987ad098 0x0 (-0x1f7f534d57db10d7e25e4e3f8552f90b57afbb44c58841288672fc929b4ba0b9c67f23f266c3f2ad38d2575a5b3acf44d4de879150e0ba313a6f96e7151a6b566b0) 0x18f293640d2fe2b378cacf1af49974c9724d9cd127454acc08c10f6c7cbc96b51fe1f8be3c4ba34c499651be4f01c733132640a85024239276cf35104380dd3b888 0x4111a519f85c40219387c1d50e7fb43f78a603da866b118a257fc5c41a338d703c10db1320184681c9df52f2462545910ecf485b2122b45bbe2827816683220935;
Dbl 0x1ed76436e7d94cc1e1edbbae7c03971432780f7c679e471c6f1400a2981a2bf813824af0aac4a44ed3de8c2df3e23e5158455583c04745415ff1c81b39c384cc035 0x73edc72c8efe2a4f42a524e6d1e0fe8dfc4eb51b723af99df40eee17b6ada473cdf443c158eb342a9c8c1ecbec5b44cf88a9fa4a5e9179b6f0bfecf64a8f358002 0x5a6835d3592850dbc708b8491ac622836061a5bc9e5a9b263ce85c5856867909e70f6ccbfb6b51480675ac76b751883b25387c3874cc80c3b034eb386de0cd65af 0xb5405e2ae884bad88aa664c1789cb0859447f853c1a6dcfdb619111f9195a8f2a33063876810b0e612315d755183cdd5e79cb34714996bf6a5e03213cea78404a1 0x0 0x1cebeb2e1f5d014a4acf0bad2f81b8608fbc4bbb17ef243a4dba398328261fff4b8c5fa979ce7f23393100b2aff64f51471c2e6e357d0a7df683f3807cd8af0ad0e 0x1db985b2ce5a6f2621d784a264031542418beb0da8b991776046cb3c80950895447ac9bef4ce8ea0e532680ff3289bc95499dd3ff994e481912b40b00cb1ce0fe4f 0xaeb058610e632100e5c370e3ad9a582f49c3847b13ab2402eef5207201f8aaedcc60940c9b39804cccd95205edc5a0876715f9918126957a9f49945083f88fb38b;
Dbl 0x35d297748de74a6acb7f0d998ecd4eaa1e8e84ddeb31e2490133fc164f80e97c61aeba4371d926ed64dc9102d71d2d2581611d0080b3853003a55490072c5fb9da 0x300e740830774958be1b6595bc4d99cd14f68e024920b48bde05bf63132096ae62be8c6286455d3ce1a55ae258e583c40aeda0a24d684e0169ec9a8956f6d20eca 0x10b34815491de00641ce172cec16f196e555af7c4027c25d1d2b859ea32f5cee12be2925f33cc58a62a2d4dd56e38412a8d7b6532398fe5a5dd3241b0df9fd73274 0x43df53245e86e0f68489bf51159364c0e7582719291a451216092eb4a38d0dc56b35b75ed2a5d6edbae6c3e99375c10b7dbc59a811292bb586d3526cf398637138 0x0 (-0x3bbd4a9517fd82e46ba1d7ede045566ee1c7b6b43f4c07a68d6c1366bc744e49019954afa71c13ab1e2976610befb8a0876a8db31ca522c266a73ad0f9e4281c03) 0x5a86ff98bcaa45f08c33eee9c62f1bfb4f0e349048c4da50e923d641c654cd7174b85207d296b521682534dd11167085fe23135458ddcbdab4b620051ae84412a 0x72288c82e21753ef1e770e7090f25f7cf3b3d232c3cc9e40785e4a9f6706055b697f57a06ad1a849f2e0b910a1faf1effed5192d0df77e3133ce1dbd93b5cb673;
Dbl 0x80bc7bc9f62c10b940ac354999b5d20dfac31b70b08d7bbca55845640e9caf598c6992f1fc2f4c4b19d3282c590350dd02616d8afe62a7de86614cc07dee4ba2aa 0x47eb8a5e147a1e6db10fc7a16f14d9f7ce0e2c9da9ea3beaffbe209b3c80a6fcd4a1550183f7a56f83611101b13e6c3d97cbc7bd56645f44850869ed35fa226aea 0xd979fe69660ee012aa42b20c9716fbcdf589303bc5193d67e314afc01cf8d65a07e895d858329af78d1383a88a412509f0449a7852a430d4c955a78c253b0fb32c 0x1e822e9aa1bfd2aeb0d0b9df44d38bfd546e861649f3678a0de479ec7d69fefb18e1d3761024db7cd5e4449e0a7a717867321d8e4f703eebce4e4309c20fcafa3df 0x1 0x78d6d9f056db905df88ad36d30418ca90790e047091459b0a6bd3359d35e27d6aac131a90e4a2df3473b8c722e6e60ab80e549070bcd3e79e761d88f058f265419 0x205e83480154a9aa5360187f58406e1135a1df9954b8d9d4fc0bfeba68d199f1d4139fca30d3b3ad846317aa74ee44adbb36e0f35de3ca33cf71026d1318ceef9a 0x7abc6d4142ff73e859e8d89f2da88c7ad190e2db2bc3636b47bb368b1299e0e9e2f407327d3b43aa1edaf3bece7ce55c76c6c0ee03cded734692611984943bf58a;
Dbl 0x4981da0d346498aa2f2d167e3f49f882b69a226a06a165a0cb56e1913dcbb6ecbaa977747831a82051674f29b786718d35196e03134b19f25da1473553799a3f3f 0x14c51ecec8b0ef8c948eed3d08357501ccc779792bbee62d3449200714b6de9a9fe79a66979f4548e12b925aadbfbc957f9f2251da23a1ea21f7480912f507ce79e 0x10d9698b133dbf27b26c473203105c09ef79ca2be8c072d9506ee05fce35655c14cec60426b20506a4849fc7dd0c24a7ee70e28c86643cdb88734a634b05271e42 0xfb999d71896b25a46820f3d0ebbd89db0196950aedfbd917bb2c2029f112bd52d627ae980a0350e170a7eb56d542a2e59dd9a29fb42a40a26593e95c06a9a5834b 0x1 0x20235a0f17423c13c2fb963f9a3348f4f59f6d13b3d103a0ac947eb39e6c0c00549516001a8964a5df93e3a6d40af5a02ecfe1b5d47b81c1c6c8dab8d0db920201 0xa8da81c8175552e4daed0b981b07d3440215581501359f4d06331bd9f72028d3fe9e6c5f3b4c004e164dd535895ed5c9caf786456268cf8b5406a26078f55abf1 0x241f364dc061c6450d13da53c7195866b912fd64878e8ed10ab619f1fb26af7f3e9162f1c987eca0868a06a932c7c6d2825bdf895628b97f0a9908451c570e0cf9;
Dbl 0x12774e417b68cb5ae0d2565852419ae18512e45908a9a4e9a19994ebf5485f59c9592068d34bd306cda87b4f1a3d59a9fabc7bde820ec0c0d765760c554c739bf51 0x268e63481b6a0fa8949f47acf6b54f368de5d09a7637763d66a78e42968f17428796a78639e9ba4592ce6b5dab9e9ec8460cfe9416cb029390163cd52464d8c387 0x14c7c1f3dc478b4e4fff4795bd7d24e356d8f11d0a4937cfa73bfa1dc7399d8601905ac75b011bdcc7dfb1c0c7faa1d7c4299bf02aaca0af033e1663ca805c8bab5 0x125c389a46fa4e920b44f8c238ca200e63e91c6f845b6ec95ddea722eb4ded26776e2fee3400a9a487feaba4d305d2a8fb3e526898b6f1c0e8f5e43bc0aeba42417 0x0 (-0x273a4aaf5b2b8abccdc31e5e4eaaa236026ecf8be4d964bb23a71ae5de1d4c9b7e74d32d0329cff2a6876605fc9bb444a7a736e23ef79c60ecd17c051c7df70113b) 0xaa7f4d8713b7fccc5d8d931c42b4377492eff355ca171a07909f4a03d3558490d18b1b105add731d7c5b7c4aa4dc447a89be2393dc39e2fd183b1aebe456c69b22 0xa9853afa1be5f5ec30d332b773ef210e9358e602b153adaae52fbad28f76a107a66cc92c7aa955db09b741fc8fa98da22b097909e246aa8673a11960891af444b0;
Dbl 0x803ac02ec73e6b35cb0c82bd790bc3610229aa69424532756ff52c3d69e7900ee508ce3360465f09af5e1055994db94ee18f3a28391814ec94aa032d0f698f16ec 0x184d86f8fba5ee724db9e5811897c362011aab877852335ff44924427f4b4234a240a1518363d12b7f3766c2fcd373c8e18f593d32d6c6d43ad36cdc3e624acb1fa 0x1ed5ff6a4fbf1a93ae348ec2d9d9efa3a6fba4d369148bb144ac1714c93641d646bb2429dd48811560865a02a289ccefb920a315324ef9562c525f04ed9c9558569 0xa1b5f3b8610b2883b900ef9b6d3919167c3b1822f114403e22154a1aa1daf3f8638c926e03aca78d9f57ff2dde67623a2d176ac0e95e954fe2df6f113e402c118c 0x1 0x9dd47e5642c83c19519a7fd4fcfe050fe92323dc669e5aa0a39f7f6e005e550ac7292af09de4fa359684b7dc8688709ff40606d6871743602f7d3dc363c90f79d8 0x201d66d5365b73741adeeb1b1811cf5d5f73543915cd9422f280eba1208481d0946f05a09ad9c8b088f5df3bda93bdd8c47de2f746bf5fda17916515beb8a8cf78 0x28800b3db5d1c1789d502b5f4f67a4f209cdd5161bc9eda3b87cd2e2ab9a3eea8abdee90542010421c862f9a59ed9b823debb625a5a544a479a910bd96a3c80b0e;
Dbl 0x30cb25da10eca5d81fc62a57776c92a86b3d776477b153a5e74864f0564db1b076d18813607dbb3b15de180a9b171056a017eb8e95d0a1f429300f714c97f49eae 0xd361b46241cae4336a32cb71643a892981c394a6b7afbf60dd27b590ede0375bc806a54d7f989fb866c839860915be119d954bb8753a25e2648661728eb584af4e 0x1e43a6f9fda663dc2ea56b2b8b50a897789b1efdf09b6502fa8aa2b21a31b5430b1933a2568f9fc296782956a6eee080071087c2e6320f95e36a2e80eed970af48d 0xb176bb2d789402f1716b8ca02541acf68fe723d0cd73769e676a8e9706d3ebee5c036fcab6a472ff8cae32a9c4217e7c7b60481ab832476148b06c51576f2802ac 0x0 (-0x317e7ab71891724e6f5855e88d800573d2462ba9675eeaa739551183f09febeb4cd5d443f285d6550eec46d1044ce933349e3224771d25ed1b0ec3f8c019413fe53) 0x4a667b369e42c12a6630875479096604ddf91e68a6b45c544fe04ada5842135bc5ee6f5859f9aa5a8d1d99ed151b60b2dcefee51b8f33a6c69412aa1adcd2d4fe 0x10e98b3e23c7669835bef39aff79ec6dce225d6af7a2bcfa86457725c616f5b65ab328a2580ee3d4f060ccdd229ff49cecc3a6487185809a0ed9fbdaf92198810e;
Dbl 0x459f6074fc62af5e4d623202f2c15f4251b82c091b876405d4beaba0a0bc753705274d8880cbb33c0396acc3fd5aacb13a75d3cb8f183dc06d9adecd40af04f4f5 0x813b07fa653dd53708bd873d347064396efa1d7d28c4496eb0a69a27b0ddc1a2b16647507c0c8f6a533b15c686ca96e4ae16e4f43f7ccdc141874803fd759f021 0x84c9f3341ecf810455273f3f4d4e5e6112ba6c1f6a8c2bdda526130628d1a46e3396a0d7020867bc4ef3bc5022172e6d9c0f48a5dfdcd3701897373827dbf8a088 0xcb4e03e29b7706dff9a6f2fd90f382e5ead3f2cee5237ac9f21d4bee72d25b419cf040d877d7d6c1c1948829a0a914a352b3dd6931425906506decf24ede2abf2d 0x0 (-0x821e1821a32608cc8ebe032e68bc0d568ec4fd3d5439649b7c2f4245f0dd5d6bd95497729ec015cda983c5ebec0add09c1c06a431076ea1216aad0c04bc219aa99) 0x977a69c02db53ef315192ddf0d9fa3c2f9732a7060684ac3250b3ddc45db6f76388a023a0433c69dc087c7c115900aeb3853091b6d25c5c459dd8c1ddba575c44 0x1ba54c8d5371c5dc3f39cfede371a8d87485ce5c5c244892408fe9086ab508df10a0578775dd743d6bbc91c2240d13e9c3177eb9595790275cdb80b03f562fbb04;
Dbl 0x1e7176b7063e3e90570872ca93849a080a3ef2884451ae2a7b1e0e643f1aaa97d81f61a60d68d21f2a7871c530a95b5068b8af50b70f48c961362a2733044bedcb1 0x1febe277fd79b643a853cb05aa78f8e8224627c632e0173942645841b1c608c74885a2b2ec87f16350a8fd47e85371620a22090118438287af8cf8e03c512a09898 0x17c5d370978c823b95458ae40a665e2bbaf3884016974b71400ce09f24034b950ff78c211321e5361b46b90ac85d2e1d225e88383994f7ae0e6950843e61538cb4d 0x95588ffceb87918eb4f28192bb777c1728d2574a48ad102c4c4e5875ead4fa5a2bc39463f41b2c19aa3dcdde335934da8c0de3dbfbfa4611b48e67c7ac4b95788 0x1 0xfc4678b63a9177cdbb5bd3d9a59c37265b73ea16901c22ae6a1e2b822d04d3b954cb92ce99faaa899c71f9b419104f6429dd1c285e35e09ad49fe2fd02c6f7f0b0 0x1cf650e750bab1c2f522683154c7ae51d678d3a7b39a7a1720e72379394778a83efdf7560a6d203e951f36d413a20c2774bedb8e8b88da87b76d823485a6457c679 0x8e1491c6547dfcaa437ce6f40916be7ce8d21d4f56b288f12eb6c110c352d02f746a097ede9de426c245ce6b661d110bf888c685f6b09491319682bcd8ee306cd;
Dbl 0xc1a27eee1c6818242e7ab6cab4d23d418b45a7b82d97fc8d48dc314d55e2bbcaa1999cc7e6220415dff37c88bdfd01047d2068b949004fabfea1f1c47d35b629b6 0x7e23a3bd0b6bfda0cb388fc8aa5119f83e08a84131b4c0b7b271cc925004b07913a97d4ab6b26d5c694d86f57c29ad09a67c7878a3f4a25d857ddf47051733b3c3 0x176ba9411a9a3b387b7fa4668078765145eed0dbb7fceff508679f9ec9033ddc16c9283c3318793d5629e157e18fb9de6dc439dc785b52ad215dfc7c8448e549373 0x1809a83c2cc2f6699ba042091fd3e7489e659d421fc4cb2dc73d3b788cc5bdbfb74b0ade411cca8d8a1424d89090d6916fba41798e043861d7351aebcbffb6ce4d5 0x0 (-0x4d8c395dd685f10b85e26870bbdeba3d4bd1e56e42c10e3a054033cb924d3404f5560dd28b7da624f406f82878ec3d74f9c9d01090dd55fed5a150233a5e67d2cbf) 0x493b3543f59014ca342ba5c7df92576f3fd22ed4bbc0582b49d46cba214451f7e2405f6733c6ee68d330cc7a560b7c8cdf6b9173c1ad4d31613946f3ee8ae1178f 0x91744ee782314db2d43b764abd040eaea71fc83461a7e26b53b9feb006cf3a04c40189ad24f107c22b6668dbb51385713bbad72d9acf5f659cf1ed019dab0e9252;
Dbl 0x3f5b31c95c438febbb71376a46cdcc3663a2c02c2e735bee52ca4c735d4cac4da1db7102c6db8724ed6d540021048526947c29a26e91d1c4107360175fcb3c60b9 0xdc41f148beef4787b699634588aa6ed29a77a3bfc07a0136e3a5ad1a9ad7e3fb92a3a338a61a97d9dcfe907fe389b08ef52da8979a609853a4319885d110e10587 0x1bc38fe857ccc6b33384ef6315bf6ce02c0afad4f4d2d6829bd857a525eecff9a6840b396eba4bc1ed1411c67084c20702323b6965e2974ee2b8671195ebf698bd 0x1a1e1b2744c7cb619149f2c8321a6ab25a3910481713abf80cecc1f77b52ccc7d8105da121097d5828c4ef675989ffc7ab14ecfe109940a09e14c46c1340652ae3b 0x1 (-0x7d3f92f794639667137cd0510494976aeb12bc4151f70c994bf8c95802b9dd1156b1909734c368746849f7fa74c47c37ab964d0f313865d001a543982cf6889e) 0x7d7017ec51fc6491c24ed7bbc370330bb4a3dcb205ca6bbddee6a209e2b82ee30ddfc43a75b70202d1e344cbd40d686aa6e98f37f5390a9031b0d3cea5e05275c 0x33b5b3b4f911531d194348967f12173ec5850089cdc48d3e9685d6efeef84412ad700ee6fb925c6cb41c6c3ed58fb31f2dcd9aebe208d092eec9eeb8744861238d;
Dbl 0x12368bb8019fa1f5635d3eaca2256aad82cef9d959b0f8b14c9ca92a550d28793fcb3f968153d2802574011ae4420f7b4d2f747c19038eac78ad01c4bc4cab07ad 0x1c5ac41cce182b76cf962a209f64de9be52e3635bb83abbe5fb880b10b8a8d8615eb6a634789ec0fa14b3a5499232c0e5a98816dd0b3fba73661a00fc111c417fad 0x1dd191b45fbb247a36ed5f5bf2dae9c82f1f0f831ae6d2875da5858c3df5761ae9c787b94845e2a7e13399011fb3af5565c072bb2ac1f8c7d2c287c7bc77dd1e73f 0x11695af7bdd6c901abd36c13b925c851447944064083f4550e81da209e22f0b9a33ecfd042d7bd6dfc84aeb365156efa94ba591ba8f20dde03e179789bff49f85d9 0x1 (-0x11a48710456bad1806313030b792747b3afd406d68c0bb0fa1f3395b5442fccda559b04460c8a2437e6db5548a9a6b8000f2ac654a0b70b23fe5470c283e5dd1de2) 0xa5dba28f0e3c12426d7acda7e4fac57968100716d8a2e8ec855796b6d9a141d485bcfda897e46d84199e53ad25bdaeb50e2709141c0ecee205eddac944aa9fd2 0x9e8f0fa9eaa831802e180a99e136b25ff3d70b55e87dffaa5415fd3e8e3d83a45e55c897058824f8cf079060f5204995337fb4dbf45b46448d866054de95f1d57;
Dbl 0x11928f3371ebec60ade1c14c4ff0b966b1a35cbc251709e45b05f314ecaf7ac70837f4a9e4d68c446ce082c31b1042a8d4cb8ed1911e0568976083bd2c280a6d5b4 0xa4155badb2cb7437bee274649f2241895138fdfb3595d80545caca4a05f200d2fbce56d15025ba43e0d8f4b30d2f886637c2c849a1057592ec470bfdd42540e5c8 0x19c8838409e8d35c9de12559573853b51daf158b0b4c4ffad5383197e1e6a6946fa02f8077df2d2afbd3982e19643850a1d3ceaf45353f5933609195792c828a666 0x12196e61f2eb743353a802da5572ba83501aa656082a4e3e0b5bd40c6b2b6d78e62e84f63287906b633dab0968503387f71c54e936a3a44e079d2f4fe3cf70099e5 0x0 (-0x2a9fbbf09b8af33950ec7a386640acc919c66a33515996cee853a8744f424e7bb536405f7dcc4e49e88b5cb16499f5fea3fe277fdb291d49d0d20971ddd571ab5e0) 0x9a65763df4e50d4f125106a4692d91a121624eb00ca3ab11407d2fd13f7167dfaec74bf554481ad32d1905edd5dbcf3f591cf7cf94ca3d66adc5f77eb885eede92 0x9f067aa662e47e382fb956f2b169cc9eb6784a8fafddeb1944155d65b6bf3b3e567f3b7ab459324dc7c3879e4e178ac955a0802ccb1e4978e662486618cf04cfa1;
Dbl 0xc5bb904cd7e65849b37de80bfdb97a020be0fd1cd13ab7435e20d7b20e1d4b232c6d9c178daed9ccd0e99ea0edb775d6a63a63f512058eed4f3fffa82a08ebccca 0x183b7c46ecdd3de028594a5bcf3676814519858c801c72d6d0afa87d5876dcda98a6ed3c53b2a1846d7429f6b9f52aaa9eb51ac63d71965464dbce0f1074175e7e0 0x14db50dd13656b8b217fcf035f9c08d98c5bded80949b2fa5474ebfc5ba9ee659a999db13dceb9024c5cf9d3acf2da8e6d4ac9c2b0d0f38e6c1fd301b76d2dfd89c 0x1205d973ee4f79635394dcea7abbad974ffa0a53333ceaa983ad042747e843329715f830c14fba1fd099655476ddcddbc4c711be5c9ec104c9e8a2b0ccce3cafde7 0x1 0xa0e204753097afef1fdfafe2bba415f65afb062ae413a74a67069f498202d6cc413b4440eba5f890c51592ba58f6628954d5ce1ac836ed892e9c528139fe211bc5 0x4c5d1ac132f13c2d3a0c07291e1914f71cc8dc5f314df0a32c83fc300608bb4f93c13bf19734bb1ba727fc33513c1f7d0233baf88ed2e8fc507a1504694d49240c 0x6f5da6260a99103be8d1767bfb6cd81a55e72a441a1578c8869a458d56a5bcb8834af30fb0e06b2b2ad7e94d7064afac6003f4f9f32df7e0c732e460abcf7b12bc;
Dbl 0xd95eb6f4b42e7a5d56d1194b72fcade09116e0d29a37394775d039a89dbed53757ef3ed9e44bd2bde5a97cc8002a8dcd4268b70372a25b90059a92af7315ee116e 0x78e768f54dca7796c942bbd30e3799384379dd8d7bf5877e13106648be2cc726d41d7b7be1be67e98e77078e91251deca82244536251340438a198d04b1b9ed16a 0x1ecbc9f2e800b15d8050e58b518076438719c7070b0dd73510244c2aef6f6f9abc1186ab6e8df08373c6a84e609ce41ac1a0a2eff89e93c20d491c5e19d1acdf2fd 0x10ad05b798009666bbc51e9e9e52fcedc0e1e7b3a85d1a5eef7ea218cc9410682b6515849596bb05d48cb97dd0e2d8cbd432f681074c83142151b4820bc25d71676 0x0 (-0x25575c00b0a06c7b5b4785ec9e53633fdf6a2b58518303fb0ec7a96bd5cc7a2744651e777b974448fa35af670748dc598b3f6ab8e2ad05a880e866d8b1ebee0d213) 0x5c48da9adbf5fbd71390ce2960835393c70a18ec753176294d19c1b1bc3d7eff2f68468f2d3d456ddf9e62e179a8dc81e28de4f97b2afc264bb049b94528d2d5e6 0x7146aa5d5fc7beb20bcbbc7dc146318a8d5ff1e6a765248e72886baee031d0692b7ed62544e2ccbef5b4217ac582cb27056632b3c3b76ad9185a7fd9e7d3104ee5;
Dbl 0x3d5661587ab3a450cbd05f3ad44638cd921baa0d5591ef1e3c90d45efe6e253af1455f82afaa2cab9d906361c68c1adaf8a06f44b62229a436bfea7b7fda5c4082 0x12d9c8dfc0caf781f08b923f2471d9484f2a108e52a1d62fcebe3928456988a4366f73d53d11cbb7ea0786b00f8c238ebb00a9fdb8e32ae28f34b67fb4118d0a514 0x107a03aa304040ed223d707e9ea43d3b8a7429c4d4dd744a2cb6015a068fe0747cf91a22920d86c69682dca15d289c87f68f7ef7e581a01f2296485c32f15c72d41 0x14b4adaf9411aff77c08997e0c71a04b350d8d4a851d82481272cd3c467943ce36d263e2810a1ac6aedfe9c8d9862e500f817a477d41e85db455630d50a02ce2c55 0x1 0x20688f4a7d7801cc52e48a890188f2481d58fa74338f29ec6b94394eeddf35ebf01d2b558d0f490ea6ab1ce66c350513b65cb0b150975dab2ce3ed9894d5f176b5 0x75923c4db781c48d02013072069b12dc3167eb31c5a54dd8aed915e6a280d814730e7621e1a34205de6845632a6c23b2ee6ffa20688bb75f59d2b6fbf7a5d05e4 0x27b04fa668de95d0aff695b9dbba3eb11d3b6cb95d29240513c8a75f4feb266bf8495f40daa34396c59db7f7130c9d7d5b8e041111b8ce247e81f98bffe8415d14;
Dbl 0x54c5ea03604d271da7611af707273018a7b13a4577933ffbe287d9a33eac7f87bd3d4c43b5e0a828bef1450bb97667b2ca223a2e3845a1ae17440442b97557c17f 0x2c2aca74ef790d720b8ecc1d6dfce312345a7c3d52851694a89d3c5a11c2112daf5ad99388870edd752b8ea989ba7ea91ee9173c96c409be61a9338e3d41b1cb9e 0x19b990504945e42bc66c8c44e85a88f3b08849b5229dc3eadb451910b8e7226e29dacd3c1651a119f910e28d55e569d94c6e8785c5b3b05ea8566dc50ee20df1f66 0x10171c3871d366aacfd2a57d4d920b172be468ca7d7984c684346562a44d67915b79c63c04895aca12b4cdc576f07ba429121889ef76ea46a91a2346d03d71ed976 0x0 (-0x1bdb9e5e98b3ce7a8a30f45bc2805d5b22e9c2e5aebe7a1ecfbe8141892cede323085eafe5223c0c49728f75e777b923cf4ce2628fcb9fae7c955aff0c4d9308bd1) 0xe093d4a1b2782410d833535ece742e8383abff9f5c9720e2597e6a343f3f63bf3653978b2ed4b914deab288d77bceb9b3b8cb651843543710ada70a3e46c058c5 0x2aa02e04973b30854876f05eee22a9e24aa8c832cb84279521f0a57da06388e88183ae7a9833d1f33401cc843ad929057418b6e7bb64840c6cd85d52e2674c751d;
Dbl 0x177596abd803a1c231d8fbca1d57f159a51e8a68713af0a1a52771a979cbf58bfdbb3fa3986dd26ece2f49ed1feea6a07fb42dd9d857ef818895a6d7038c71f4652 0xf496d7b7a9a4186d8d270d4fdc02e5b53967863a1d4e24fb32272ac14e611c51e38ebc86e561b8f695e9d9c75b58dac5e4506446f1423a534627068f87578b7a3f 0xef8a8b2b82d598a671bec16c5a887d3c1e61b6b478b881b9cf5235087249e706809c3a88484ecf736752a055ada112be8231682a839bdc0f5f1a60ef0526627252 0x13793f2bd45d4f5047e67becd91f9fd5cfaf2f6033536f19976761198c360f4dbcbcc1d0ca32555e6df41b4e22e61a3e33a98b2f5a581cf6b1b822cfeb5ea26515e 0x1 0x2500ecf0b9cf0cb3f8c030879bac4c62f43aacbc422be428fcf8ef124b524a5a958fece986cdb51e0ff9f03366b0333eb92d50768d2cf1b4dc3cb2a5a87087ffb31 0x1132b8af948f770a6932d391deb82123abace76752e3e89eefc1f66d02067fdcaf11dd080b7b4c5cdd83c74bffe813692b16e1ca14e2937e35ed98184fc43c21f37 0xe46b467645f2c0de067a479bfee97f2560a7b854e90a0fe6f7e431e94559189e30e7cf666bc01e3a32dce91186e0112af6a455f200a26293949321db33e059cd9c;
Dbl 0xeb4a52d200dbcfb9c890527cb29a0e94bd311e75dbe94770123d692d75294563a9534631ba588dc5adce7585326f4d43f57053e5e8820749b0b05234fb05d3370e 0x16209901c2ce69238cb40c78cb818ba4889c118eae521ad303d957977f9bf66a47bde2c253a4d22b49a69032db2e994001bb027bce2e0c7deee3dac1eb44cb7b72b 0x65074326df34dd40ec6976124e6f3e93cd03a86c736a4c5223e6c4ce99ee7401cb973a21ac29446072899412a6d9d15fe23e74578a381399218099814b08bc1cea 0x1928d479b7cbd8634c1e645c323ea2b6cafa66d4f382c77caf491b14954a1b5ad67b09061ab149641fb80d699a86f46c5c8a03c8a0e61727457e95a70d30ad3c313 0x1 (-0x825e1cd75ddcc0000312cef8cdd1250e603a5bea641c75723ad46a39d74d7f2f77f31683118a4a95e664b488774d3f89a52d64e32b000a28c7679cba05c0b16a78) 0x6c20c4d0c4e3a1a2b3aabc73990437779df28537e850fc3ea56662323410298f46954a993c8e3c8630351fe0356c29bfc04a337a348eddbeb5cc13a9e4a2e3a6e5 0xb8fe47e6f4511cfe720bf63c342de63bb6dc85e5690ddd61e850164ae35c02a91c21eedbb4ea7e71c79d8fbdae4cca8cfbd3811a58174c3bb01f4cbe77f0f7cf32;
Dbl 0x2fb03a07166ec201e6c8d91add6016ae0199aa24df4f569cbb37437bdb74b4cccaebb04a5b4f13482aee8ec94dc8e30e63c4b48ca3709bfa097b35e19a84d47d3e 0x3b02b2a743e511df2561f7b571bf98ee6b48b92a43d782c8bc6d7694e81625f9a7906408358d01ffdc83e55dd1ee74108b78d327cb5a08f7cab685f627dd308ae0 0x17b5391783aca17510fa12b386ebb7fbdd45049f2897946c75be8c4da3fdd93bd2c0eb0720a0581e5d7861a73ec1e3d92c648d06d989114d9020b09053aea9b6b 0x12706dd74e9018059a5decfd74659215a1e785fc0a14a2a67812802e311a940aad44dc81d04c020b4bde51dcfe0fb1fef903754951786bee7238726288c6f872c4b 0x0 (-0x2cb9bcb254ff4ac4755e67af116122562eb2b1f10b63c11bb86f22787a90180daf02f00d50e9c68d47345b022ecf91bf957a338176ef7ab6deac1c8b696635101b0) 0x471174f38915cf1f0a4e2e9d1f4b9f8f897b2f3178180187e91be8ba6873b2eee70766d2d21f923fd7d14a77a120d1684b35013492a86a4342978b770daaa5e32 0x1b7aad20382f1f1301240dce14ae57515f812f374a9b19535d8ba9e486b3326e358a4e0677c97f5c8422875b88d0dca7fd726d80d6f8c519780e0686f2e62d5f2b;
Dbl 0x107b27553a557031b2775f0cbad8a1ea77726da0e34fd04e5d27aa094e73657f20afd9d6ea34665728cf2b48f272d646be26653211aeb400d1ae80c4c72f8fe213b 0x13e2c2b8cd9b7ad5e3baf5258a6e84db1ebfbbb723e40ea88b42438607c6beecb331dd85b5b4935a211ebfa4307803cf1846fdd0a0f42fa43cbb5b80c0e82a8845f 0x10c768bd9624da4a91cae3c0d2eafc73d42590ef005711962319e71f61938c08b52ebd50bb3fbef27f1004929dc197593c09fc84cec8d0efda6313ce4450a092935 0xfcd6871a6a2d6480e9b2a55ccad74b3c7f4cfdb80596984008493e346baa372e74728bacda43cc5dca97eb1aca6e371f0708f61dbc170eb3ff00cdea195a880680 0x1 (-0x12e0a2482a13f3e1ec9b463652f2d251a2cd3fff661bd809a2e371f04d90588e8d02cb1b72b9f39b494495c8c531c2e1689db9b41e509c9cde6689efdffe866d55) 0x87d014bc9de822ec2371a9036ddff80fea0397d8e5fa5219f6b5dea8b127ce544d43dcb4f55faf9c6fae55790f253f98b835d8d3caffa509dd7cfdfb29f7a55686 0x823852eb5e05c57a617bcbb1601c5215f4a2d803eb8159d3beb1f3185cfcea97900618555b271d66f5d7278f3564c4abe28d7daa53a5abfd19a34936846bc3c520;
Dbl 0x7533ffdc1b9ece847ece4738bfe75d11faac705fd11f21726ea71608edb6090cbc3ea00d18647b8a7885037a97d0cc97e2bea6e2294152c362c538035413b29d3d 0x7e27bb664ce112dd076a3ca2e0a81ba831797a1ad6cfa52a9deb3ab21fe30c3a3425efddede316ba1f253d5f4964d2c6e0b5bc33d344930c59e1f0c1aefcfefdb2 0x299f79bccfbd52faa74629c6488ed71fb2b142b6eca8929a72f79f40598ec6e9e14cc1915fbc31c1cdbae8635144db8a51381b2d7167dd751391fa1e121961aa16 0xc00470268cd69a81344515b5c6403209ba8241576771455e1638fdae5c88e290fef7e87d6d661ee7f2c6bce3be1b6a2aa3ba20d63bfe673771d3c74a5f85a986ad 0x0 (-0x1d641efe044b2d8c8e6bd880bf81664faddc019f944046a2a17894717fc7cd543e746290a0cb18918b329f201a28478fd496d0e16776e8d063954662991b9365382) 0x1ad4493791553328a0066edb54ac79b39306b9501c89d1e5542afddacb4e43f50d9b327b98ff716e7a195c8a1c16947b53b1c300600a03ab0582463bcdeae825e7 0x2bf48406bd2540206e9fe3773934625613657f4a9fda760ed607c8beea7cfafa6f34201b51e95bdea89e26b6e6ea6194bfc9fe7ced128cd5c6d7baf7f8d723a312;
Dbl 0x1d3e86342b46fbb98af30b328aa306cd6a82dfce8d710e0a4400a3f25aba0975f6ff9d6331386dadf059e24048c155a722d2eb145979327650d47e295f6c48f9f0f 0x174b644e4e35f67508dbc8ccd9fcfb09d4c7b6df96f8c87a2777249dcfb5a83e39db4296467910f3354d81f6f6417217cb32e6954315117b9cd5a6db3a8e35ab524 0x1984a3a07a3116d1beedbccc9df881439f7407dcfd2782b061f1cf3d77e3a9321be863012f56bd7f19b7c240e63f5a7d167d9b7805b669d44f01a228c95246be9d7 0x1097176816981ab8c79adafd540d86b0ae4fe0c2167431d882678f0d5248888569671c67986520786ca4d1defe54db14a2d8752dfa1f37b528c87830e0619a4488d 0x1 (-0x112d0037ba710f4e29bc8a8546c30652041138fa88cd3d8c9b1344755118df99ba329d4f45eff0970cd4531520de45a46220556fce6abf99ba437d9d3b7569534b) 0x1ab9cd68cb6d9acf183e5ac5c0245e651ebee1b82463c9411d393c5b56669d6e80f0fd836d4880a3bbcbb9e00e95d92cdadb383c3d2deffee7e6bb9d410cfc30da7 0xf2957876c1f5b2545276c51e4e45598ac55a403da7039b9ce912ec8164bb33ed8b7229c64905a7edfb56b4152a950024db07354f3789b108926b1d2b90395ac0aa;
Dbl 0x47d6773269bfe3e10ab4012bbccf0b5b6f7cc612e30c22d4e1873e55856a2f205447482f84fd8922f26cf2256276b0671feff42a8b7cecf531c15c9bd3da7b7fb 0x75854ae7242cf9661072e3bc8e68e4d43e4b2fdc3fbb02e25ba46b867147df3e878f43702a3af87eceea30361a335ab6fc181be214428dcc9d9ab5fe51e870201b 0x1010480366fbd63268f49e1041a439f0c524d658970d8fd6a6733c3dd8fee751f85bd4a0672b5126460faea840084cbcf0875d38316e555d52a56ecf90bfeb21bf5 0xff30f9fdbf326dea7d49a9111166cbc90e303e1d2fd184c01bcdde568a12a4a51624e5f43d5616b485edef3949e3c6c5b7164d721d0e89ed2fbfb7b556faea9509 0x0 (-0x326ca2cdae2a497ba5ac6f55526e6996311c889883f155f0b0fb0a1e710d30c2e1cfd962923ff0763e38f3c479edde6f2c59781c861751a4912f3ae80541ffc266d) 0xa1454e4bb3892bad856791c175810b84e9d673ea252931626ace95a69b4c0881c87256fb0fab22e1dadb5412753a386c3bb01aa9efc84fdc0fc3b768372ba4a 0x23ce2f8c2faa7ba806eb0491993f7cff2e70def0895f52635fa4739a1a56106834d31fd021b22dfc0433ba862620b55e8aecabd16c6f090807bd6decc10b576f9;
Dbl 0x96349ecef56ee35cdaebd2282b75964fb446097f3c8c2c9df07b0ec78abccf8f1c704250f5b5272201b7b36be73dfb0c5958c492f3331ca0b88bda60df7ae8165b 0x1f52eb660e491ccc0f9bd93abe740c20e532dbd4d59ee9161c569113ac763017e47edfa2851e9070c9730e2489d9014ffc43874a79a3c09615bcc24e895e1756b7a 0xa6163890bf029bb7a059c26ad852510ad2db46c96df7592075b444f393a27240c4af1fc78775aebc2635933e9a0b75d1eb32dfb30ea43cd38e1363f45a719c9f85 0x805694863f9b2ca516b55010a72822c5eb1d728ee5cc7180963b5a4ba9e4ddc03fa14947d851f17237b94ded7ca345b737dfa73a7a06846b41ce9115bc06fab4a0 0x1 0x45e0cdad35f65bc6d47d5b98f734b5e4116ced622ed8a4f7d13e1172d41ef6c6a2d622ee899d18f2ab5d9636dc02e8396437f027685f3923818d5af88d43764c5a 0x2c10da75b71ae2e0fc57a07be3784985abc4651e7c00c6cab293167b34d8c10b12db84ed5078c4bf6df4220bd1e41af90903f558f500ed5cf4b077aaf86f71e757 0x25a68e1d027555253030ef7b539b9eca3ff5979deea5d35621ceb166f20cbae48b0a39577944ec710d5e7410b37eecc4fd5b76962afe2e32c36ec6e64e78aac69a;
Dbl 0x1da792beb427d310d75821182c6ab92a3ba011760f6c976a917c13e0271b79d0b2f8f9f8ead5c0f820b8e693c52cef1f25d61b008c568ec687536787f3fe9be29fc 0x41d383b86d30a5b16de393b2641fde162ca071965189cdf20ded4a28e5dc50fd78277ef823f059d2918e2ad8e9ad0114bc5c106f8eea93e5c10f8341fe21dd6e7a 0x14c4338b3d686753f281f91a0fd521304537311da687a5aeea31637909b145543211750b97d77a6a3e3ab54d4c89c397c917d7f0bb9a996519b04b8115bad6dbeaf 0x1b35b32a87761270f8bd9fff98320e3f8268d4bb70864c36fb77bc711e186b080cfc67b302df8ad3a05a2b76fb3e313eb07dc64380b51757b9abca1a697bf97fd00 0x0 (-0x48bf40bd0d5f5c9765ac3cad75fad1c036bb22447d770e3b3133898495ceae66116652cdd6b78786bd2f3cda588c2d84581b3d71857552cf7b36116b8631ef5056f) 0x1b7b277fedf12aa43b3bb0e4012919be562ea48a2eb2feb9c7f61c321b0823dcbf0a070577ba873da31553db9a211bf036d304c9b748e4fb2436ce0ab72d3d5955e 0x19372764ba2fb42f9d51e1ef471453b6ced5ef40c655f3ddac0fbdd6f7bb2546950711e1238fd3f3db16525db4044f7738da77ed43e78a2c9069e61ef9367e85234;
Dbl 0x9cf63c269c6e01488a3651a0ae75fdcea75e0c0b0d7278272812e82088d126e78ada4660d7701e8ef255b00d70708d1aa5250b28f917b8869c2b57dff57f750178 0x5baf05ce9762eae4e0e69418a412cb2ffcadefac0da42b197313fdc9556370791c9f88c296e6c13e9fcbe6c7bc1576e51bb08a7bdecf01353099a1daa94cf92b1f 0x13bd40e8637336a3d5f4512fbb6f3d5db21fc1fc1d28a097cda11d2e02b6109bc5babf94bc3929470617335c5cbabffa9c1de7fee5853131bd7adb36e6565e89a12 0x1e6247de9d5cdbacc8cfcff99c00d12e62ff281ea43e5a2d89ad94c5f9078e0845b87f6358d099893f1c244112d978a2fa0ab85f3b01b92b09075e16754d4e4435a 0x1 0xb254e9beddfaf04fa08c152bf9dc69887bfbe05bfecb3b717d83ef0c9b34b927bbca6029965dc10b067b7da245f612c717f094e3ddda1b8498d8bfc88cc69d1459 0x301e83135b7e6a10a05a3b845b4ea2af97d5009d988369de08f353894af2bb64a6c1bf61294cab17d706cf3134ec39aace2f96290eadea06f25b1f32062901dfd3 0x9508eb02ae7cb9984c635a58d61490cb445845199b4a8ca1d9b2fc392a37a6146083932eb72e17b9f01ddb3abe153914cee90c7b18e459c5a0a9435649f5f16c91;
Dbl 0x1b6e14bcb6b8cd48ab74c8380725dbb5080e5cc34a6671ac5097ee9b2215f103460d150628102179a7ae9b30fa23025b0d47ad34708d3f0b7a9d7ea84ed0eab4618 0x1a1a960e1b3c7878181b810bf456fc66ac38f20fac7cbef00ad12025c313b0d8680fb5bd6fa772826c5f684ce2cbeb8a529690c65c6becc7c6570eae5e2b7c097fd 0x12f93cad3da45bae98426c1b1773410d895e1d008ad719258dee20381490453d341410eaf63fe82447c68985b1f977a8c64cc4cf223fc14a4b585a5e619f6103b53 0xba05a4ece39b63635f2e83595ea304c5391eceb145d83c18c601fb6d242862f29ba42ceb9c6f9917d9d561f98f56be3ff2477e16181034b8cb28b6f4c695389321 0x1 0x1ec31eb0dc4312b836dba716fff9a65660a227c200e916fa3fcaa3f99294316afd910f401fc2681848967264db29787c2f6a2a97839a817551168944b7dd8c98de0 0x17833dad13304e3c04510b482aa7809688c4ecbe4713c808eaca86925ec61faeb4d4f948dbfb69ddebdb8666de8595e6b505c87a741ae6e3799660ee483fa71cbfb 0x9f74af1b5cc8e3ce0782a5901eb05fbaaa35bfc2ab2ba8c08e0d1d48f143a829cad50b4ac295de93914c9f143c2498f947874cfe7e31dd0aed7a0e16b0d165044d;
Dbl 0x1eb810519dcf8b403c5d2d72094530064a1125fa98f36d0326ac4f9da49eeedaf9261847a1e0a305e2f8da5581d3a70e9ff78c47aec6e70443674c047b7ee5fd993 0x31716f36bbd5f89c318cc7cc5f49688782edd17f04c0d112c6811b100860ca9a5bb0adfba4723c0ef235f077201cd61540e109980c03fe67ef6bce4008db3002ce 0x162b8110696634370984be93a40090bbdf3e2615c6e12e9ab536569353497696deed74ee37682c919da834cd1fdd9ad0c74b99918262daa7a23700cb92a1d19d891 0x17037f1aaf7f18ee5502b48f2e6265de340a14f7bc30b1dede690e74c28da42ec254aaddb5604ec17d3c094570ca1e28fe88802cdbabace1476051ca5d9dc90952f 0x0 (-0x1b74466fe70b2908c48f91d5367e492f4087d50536c61c8e725f902da5088f391586876aa3ad17e1de02e36d8da8756b3aeca0184ab559246088ee63950539b873a) 0x1d7d4154bace65d35417dec9734a410e812f1f17f5b31f3c40996f7676839b7ec7708e182e9d4ec1680d322a42bea7f8e2b6faf6412f8ed8762e3751533c2aca85f 0x1617a7004fddbfd914741ff101a9500385520dac9edc84d5cbe0324971f204b05d9a6b7927806914553cc6d9c7e73d87d293d902292cc03ee10b2c7c541cf3e92e7;
Dbl 0x616894fa3703180bbb1cd7410e68d809fc423763829ac6bf9948581bc991759e73702427d41474760566809805856978a6c99833ad68916c42a343e651a3cfb88c 0x1d0ef0b7ed0133b2709a5a99b24432314ccfc853cb8fd7bb155e391948364c83e37c2cd0f784f66ebbcce03fac9b6de788199029e9b39c02ceedd9166282d3d7641 0x599ce62f22cd44843b5a2a6fdd829736c318c2b1b3c77f6ac1a54874b7d5da75ef6d0e05fb3b79619a17a4e60d68eb11a2e2f88ac25f8cb5cee4c4d8a054de3ecb 0x608263b7ebc2bd7527e71e313b064572b5f14c424bc35561709d897b84fc025c23ede0ec2c22d5233567ec7c5665f79cbf4806f970ca3e3b008e3cd9e0adf28c8c 0x1 0x78a5b9660bab9b6687b90b8f6c284897a108a7c3830787339a3b747f39cd282d507969f6956444d0b0f0f97f5e40f1eecebcfda3728254053cae286ecca7c44ab1 0x128835cf7fd7a773bf7f5f17cdf6e3b53e94ef2060cf0e44930e0ce9875675bca4377dfb5619770b59419027fa85a71c391383149c63c6a47e82056013a42bef4d 0x125c6a757462ba69c0dbe386c89b8325a8e4c6714f16ea5f6018ad3820e4108e4c831a15272af02ef83c2c019be843353ebb84f8f5c013b50bb2da96fc331a9acc;
Dbl 0x7c93907777be5a1dc285441bf21cc6df10f9bea3d6e7b9eec27bf2da90e085b8f2ca56392f8f40fd66ef39e5a419e6141c507265a9261ef3106ced04655f6b6855 0x79e226fe2dbab1761c512060172f3d629dcb71caafcf7a3e813e3712a75e124ba8f9546fe48f93eb956cf55e765d48ead5c11fd457ae2b9475c3e525d2afd7c4f7 0x1e35adc7aa519ead5c448f25eda54b6fae35a2146e0dc1143577770ba4af706b78840f5ff09135b715625be6c8a20dfe9242fd9211cd55e0ab2bb618c7bf963a03a 0x1570ce480a25889b0ed54893b0d13e5b22f311372092e0172d4a55a81dc06b5f28ec9789f93bfd30027610e9c5359958dabd7e2ca438b94987919ac40557d65b14a 0x0 (-0x4c6f9762a291b110448e8a3b5103063f70febdde02204a2f1df9f3eae20ce9c6d769ca83dd53cf0aa0555510259ab3a7ba4b53c087e64931c9365bba810d37ead4e) 0x1e4fa4817b5d452f817d236ccef321b730c85f60222e15df85855f957dc6789764424a099952d69f685e801d4b3531c48d48e62835eff8e5acd012129192bf8540 0x5377fe566e3e6098ea46ee1fa613ecb90ea4bd14f098d09ad53e45bad98b4f41280d7ec5f57e24bc32316d8d1b87c2ec14b3dee9ce412b3ebf19280d4acb89f173;
Dbl 0x13b94528a45763abf6134b8f0e9596d6c859dc0f81ed237491d6393b61cdc8722b59da1389ac05454fd823e2a47ab670a293faf7fd4a0c14b5a1b5d648a4559138f 0x56e2d943f5c7ca562dcdf7237b0200ddb12214296a41a8ec10f6e99141ad41ce70cd83121b93217c7f07228775f6753eec7cdf9c24e192a20d21e292cb67355505 0x15dd5a98fdcd51b962f1c54fe695ba3f7a9ea9c160b84162e6bb131c000970be1e59cbc405a6136b3f73c9e84d12a07248a33ff2e7e31099d8a9f743d7c9627a12e 0x22ff4dba37f2e71fee83293c9c2d3c84eca95da1458dd15270474d8165b0d07d382bd15dc8fc726f1665d2d70066d3abe944403832cc98f268a202930748a26ff2 0x0 0x1fccd80b2d3e1b12af0aa0b191ff82bfb68ab68cd4e6b15f9ee25bb619d2f34c4d00bdc6111260559408c0e374677b13e0cbc4627c1082005c055a53d744dddd624 0xc2832c87e8b7123acd39837b543875a97309d4c594ec32d9ef103f334c2c2ee432e1f4ccd49ad2169ffdc3e9d9e8095b513a008a17ada0c2b7dbacecbb15f85512 0x159235c2e0426064731abdd259ee2275afbe58412e723adb51d28c9aad12b46d0b34f65d24e4aaf3a2466cd5158f3312e9366841ba9e75970cca2b3569c95dc33a;
Dbl 0x1225e00af3d0909913da503bcff126013f0f52f7b714d2f3b034741fbf68c2d33d44b47cd660f21f8d55d666d0ae2a9ed211dcc5f6baf610ceeca2f6ed6ba186805 0xac0936e34f5e3e7c966ddc94e1be24741998de920a73495d2b08af41c8a3908ede7cf96927b4e83ce55272d16b3ecc6b4473a8c09947855c603cd54b988ffa8932 0xfd6592bb0089bbc18d93f7ee9dc0b2a786427a8cccb2ad0ee7f04a8e7c7f773a12221c12cbf450a9ee9a43c7a4632098aeb20aff071103e749f3b1a1aa9d269d4b 0x1aad9a260a6698bd997601a8e9943dc69978935975fce5f8ee5ee3a4f7909b13f925089a8f3de393f99b4afb60ab7a8d3a80936db8b9a0d45ace50d4732d73acbd2 0x1 0x16090b2fbb72cf5b5cd555f608ca3c4ff8b940bededd6bf8b6733a6cb3a6b02a646396d41512a2585f875bb5dfe3855f242b3c92970c64b97e31e451ef1e1c94a7c 0xa4ac8e08c37ce2224b9dc28d0e1f48d7a5490a142ece476b88fd254c0a60bc57409fe291a1c12a1ffb4b75b1490be35e924269cd96513aaa07c94ac3586f312323 0xf213a37fa645cc4594abb5f86f094c70aac7879444b2b110ebd1b40634fdfe711f62d4efb725aa5895bb495ff4ff941eec6f9e9609b4373196c98950936caaf35f;
Dbl 0x1db43390fd26835f5201f1610948d4ad07741dfdb730e87edd61f63ffddc01b1510e4cb5ad423283af4a98fcdf1439096ec0bc25964a831147892b90f604ed612 0x8f752a08fab22a653b792fa255a773bbc52f1ea65a678fc163208fdc754faba5b7963fd369de1f966cbdb1bce470839c1429ca5ba73a92ba161ebc5309b6bf5ec4 0x1459555b002b0a28ac5d049a1586d9773e7be46a6f1665347f54e2757c8efdffc67fa503f215678f26965792cb3d33b5b5aee92b17dd6658910096aff662e58f405 0x1c940cda54ac14175af4acf28c16b0b85469bfebb00bb99bc7e81f655353e4e926e6b995bdd6c8a67894c11486ce48cf3049de64f20cf2a24a1e18f88ed93b2a6e 0x0 (-0xab94252035f2877596dd4e3126b227a9aa709415f5b55e8a410d0e79455c173ca951cca4ecb02e8398b249dff7d54691e6e47bb9231db655ac30455382708fd943) 0x1b92943b3d0e773ba505765105d534893cbb3ef687e605fd94b18a419d2d85607b84a997bea2a17eaeb8a94859c0072e6510ec3821e1f4b2d00974a30ba57e4 0x1a871a7b99a2f2561a431a35c194a925211555838c2461343da5811fa3a153d4922c86e7d6c7d80af383e4f9a55b82dcf789d6a94a81bf9573ba630be25aa194;
Dbl 0xaf0e83ad2f4f179124ee7401f34703b43ce8acfb00cf9ec381750feb5737de9b593c3dc4ac3aee3f8f4a7b9912b89b75c58b997e1f444770ebf570beaa5c944e3c 0x1e3796bac65988338bb19f3f05b122324c6c43e50b2bee0adf4d0841818c5f1fdc4b12c94da28b4ee00ecf1838a99cbfcbe8ed9ac0627db36b6b09a3e8b160e37a4 0x90f4b9b2de9f1d23d7a23d83a581523758906a06e05fba7ee3eebd6890629dd5d73f60e835e5fb261cbba6b74e1ecbba1decf7989ca2f6779f211af1ab50f7626 0xabfbbe5c9519a72c805f3bb1fa955096fe6ae055a7a8af136e500bc45c89b9a7f2e5133e8fb56aa86bd0c03959d6b79f559af0afa112b7835f6e22147ea0b1271f 0x1 0x660d6355759f28b15321cf7e8d78d0d9953b9ff750b3e146103524b5db3ed57d04926eae74e7e58059b9370fec8c2535eaeb18b4dc87371a65adba3dba067823d5 0x3bda6c6cb8ad013978104adf14921e9229cb14dde7b428d3db5a4f6b884c0de5d98229f6778ed5464c85e05785ee2903dc5af6209822b6566c66fefec8d644571c 0x3acd6badef270801a8c2297c27404810aa986041246f507ee687dcd7bf5b127c8a1c0f4cf47a7339052003ce7f161059811ace75d0666e3ecb750fbecd7e0bcce7;
Dbl 0x17b185c8364f19774b86dd3438dfedd83515463a35afa22e72b32dccd19d83d553a5677328b10bb0449a8a23bc975e92bbf0344b529a67bc22e058a55c4690ada6e 0xfc137e015dcd2e9bcff8877b29f5aeaa27502c0e789ed425d74368ac975e2237e635b20ffdffa60eeb1c5dbfff1f499e7ba5568027c4b6dc1875b620639659f9e9 0x1513bb964e042e7aee4de4174e74143ab1a4ef08127efdaf8093b7ef87493916a8ad1359e0570fd238b94672002643a1eb85739d6c9e33b4ca669be3c6d3fffeb71 0xe765edab07cb549ceb216c75311c747a9f7412423a200c881d8d1b6b8167cfc5de7b7a84dc290edf15d093c38b7a825e42e9832bde63245a9e3ae41e277fb43dbb 0x0 (-0x54c32973143570562fc7935782ad99a206211ba68baf093a02d81ea8bf049b4611b69f81eea2008ec8998539c4e04db6c2da3869c1aefc19b054054064b5f629d7b) 0x118b0921f437a7bdf0df1263b8366fdbe509df113fa86c1edc7870217d05f5e8143883d4bc727287dafcd75c8d45dfaecaa5b761d5f132c614fd38d3165bb7ee1ed 0xab54f604f13183ac3db38b1fce5d66188c9b1bd69d66594868ca15bdcf8ccad37fbb1182485f2facce617609e0435c34214cc9800c5ed3cb18dee50f477cbd9d3d;
Dbl 0xdd4cf64ab2fefc81f1b9976a4750c8c53ce01af18ef5404f46b5b0b5d72457d13e8640c920e385dcfe64849a57253a25be0f1d4397c2fe25d7c6f4052a989105de 0x165752d5ff9b9d02b8ab5da215e5c289f82b421a505f2c65a048a924b48df7c5708ee83430ce158deaf7b5edc9bee7ed0fd68dc29bb81972f1fc3246fc8bddb33c7 0x13738196726eb1de0df2b95a432674df1b04177105e84bc3dfe38e9d3dd2bb6d3841e88044d9abc41a6f53bc9869009152670c744916cab360755564b4a0d9d7788 0x1969e50a164135e704542ad59cb99860aa49c0a6972ac0dcbd2b8d6614e7ea5e0dd472eccf11e4d303ba0fee36330cacd7e3c7a566c431facf8b291b09ad87ec621 0x1 (-0x50cba11d09958b83571fa19f050444a60fbcc276a9c78a676f6fc92db85c950fa2889425bf3780215c4214081565c5cc136f1cd274f3a2090e49a1d47599257fcc) 0x5fa6fc30112d1696272ea13749ccbae7b11d6ea06de17b707b70bb2be0d463c1e5b84686fb0e5c676d0612ceba36187f5455561f3d01e505da02a38e98a4f0bb15 0xafc074e7056df4a77a2331fe5ce37569870e0529410cb8c1a0657d9389453a65c348570f65aed7dd6f9d349225aed89d0c0460070be1ee71b9b7eb4f59451ded5b;
Dbl 0xd995a5eeec162554a5d463f0aa43064a2154c8ba7b8b62ae196a498dfb8e92c2c149070f84d6b5ea8c0b97cf0ece922f1135ec50bdc9816d0613b6534209c1cd44 0x1939715875425f2b8c2d7309c761affdb67aed18677e106d5be4a0c3e00d01b3c097da97845ae356e2946b9786578fab381f0d3b95744f06181a6d6b095dbbd171f 0x3175705acd964a838392f2524e4c1931718f9f6243324d2de166cedf43bd934998b39c4db1284e4fa60736bfda2b7b61e1b1d2b5f75e06433465d3657b24785079 0x1d1de17d8a593dd72c7dea984e84128c41b05501e8e11bf844640860d480f611aff70d9cac73323708634a5643675841d7b780870643ca6cd9e1c4dbf32e21e1ca7 0x1 (-0x1e42b8e5f71d7658d7ebcee9a965d2d30f036c138d70559a1b77cbf9569e30508fe575355f8af03d212fb6fe451fb6e40be823e509605523eac7e9767dad34ea230) 0x5c778564cff51c30aa583c487c23c72bc240a08ced01e0c5cf92205eca441fe5d6913dd24fa77f5f79610f53daccbd4f1ccfe19722d948b12c85086df16a55849d 0xc5facb38ba764774aae4216db745b1365d18ea12536adb83d6669fa979f3aa77eaa93c322bc667c465f9026652ad683e6233ef0785a47c9d5b3250186b8c3d70a5;
Dbl 0x1050b829023432fd7477408c33d5bcef3ab6da67f98a1a84c0ffcfbefe70c55c2d1b9baa79a7e98a87dfbb9a3304d439011eb757a0a19fdf60e9e5d0ffbfc33a181 0xbe087714a153e3221fd141ff976886e453e99c048166f7f599d9ad2edce2e66f2db594cca3e8eae413f3db4c750bdedd890af573f2a4161596fce13e03d0739036 0x1e065c0ab7393ad0dbce8000000c2c7704ab00a8de2e3690f954c9ca396fb3f4229853da6b0ca631c4bfaaa200b142ae67c3f9ddea494fb01f291eab39e5daebd46 0xd58e9e72b2d20f96a305ee9cdeb278f713c53581f67a0ee024705f0f23ed34ccdbc814aba1c54a8a1552de2bf06d1bd5f8e5de4564a0da4beaa9f572920b4986e9 0x0 (-0x387f89599d427ef36f9415a37ebc5b05bbf2bdc172c81fef642da2bfdf6d408fc700ff93c3e98d9a737f524e302ea2dbf98132b34f0cb78ccf3adcab9adcf198ab2) 0x85183c5f31705e25809d52a8043f411f4b7fe7dd5644e1c15797febc7adb872a1642a35e193f286ff644c45f02d591a9642e8bb722498eca0924331dd9d0a43b73 0x6ce200cb34abe21236d92898a0d0623f9a0eba1ec059504fce0d7687ae04bb7d812ab3367973520fa7037947935ceae6a0dc2cbbd459e350c42f28f68257d68956;
Dbl 0x79f6c53eb1fba4d03b1074a7ae74715e77be87d68b82891b285b8d2c25b3b76e246b282d12ba6985a699233c1412c7881184590ddfd54dfe385a89383226f08efc 0x183e1b0d18f0dbddd990f9438478e27270be45c0758d9ae4bb5fd23bd887cb6c645cfa713de97a9a899dda3a45d05be01ffe771fd391359daea3ff48a37252eba7 0x14560088783f20650faa968fb1c765802b5efc8079a4ae00660eaacb20b619b5ee8339540f51f2e8dc097418d9cee81f08c232e9cd13593d0e46e5283f7f2fb7fac 0xa5ca5c0788630744464048bc12efa471e32b56440bd95d10de79daf3045b1b02c9589a5b65ff70498a5601122f3b82fd690c7e541f12e077e858e1f5605e20a48f 0x0 0x1146526cb60eda5d256e2363c1383e18296542977602dfe62872bab505b7fa678249571a444bb4325e52ad24a93e60466ebae00b2d953269acb5953071f0041859 0x1d0d9a2a785bbf5acaa8a9779865fba751c2544968b2761fdb356971fe2da944ac2743b7e22ed7b26c02b1482441a4098f3902b9c4a36a5dbde9975dbbdadd8403 0x277e3ad8a8e5ea92b5d92361d0b843156853d3248d79d1088056c21a2f4df9453dd3da1e93ad18c51971191bfbe57fd1bcad7dcd605c2b4e8bf67cb58e0d30ee2e;
Dbl 0x256fe7d1b88ae40d8fad6b9d3178c9303e8b6921992d333dcc72ed4a39f9bd5786e6ddfbf9ec1678e5f2140e9633635d9da26f2308f504e9f9abd4cb390cfcc90d 0xbae113839691fe54b09a4dd12ee1530c0a1fbdee591ae59f7177214ebf41b680c99a7a9339063e59793b6baa2683fbf6823af87a7df2b51e5ecfe4f02e36e4a40d 0xd5edb363317dcb45540da86ea2a6b9f40d24272840331f3a962abc096b6e1bbf6fd0db646d087d7194e662b9c06f9743c5fcc47954452da1c3f84d66ebfc229914 0x15d5d0789825edd8928f6ab7255978f66669e87d21c72b54549e8b0ed194614eb9ac27fde04e33c4110626e901f4c5fe99dc37ea5559e807f4fd41a58753b6e4799 0x1 0x2c238e4e23a97a91a7520eee96b8f440349d65f7289a3f185d30ba74a8cfade807a21112cf1a467c89d74d0a24251a94bfb01154e7aab9e02485cd99c28d110558 0x2bcc4f6bc912a9b9755c20e3e26c893fc5f9a13a2257d7766e3990e990d1237578a670a9290e91d11dc21fc2a7931121cddff339d11d4d5de0c46af35740d10b2 0x198b94e52587f0ec168afe89a80062fa531acaf35966d15a109622590c5b1ad35e65a269609a544a7af7bd44a6ccff71b0663928e11322d9cb339d714badb154fb;
Dbl 0x193e84e3ede4a3695160ae2d3ab658423286a12876dd66f9a79c73552292add74b3d4f2cdf796980a413e0e6f418003c8b8887e42aa720453f40fa0a0298fe8f55 0x1311598ef27d6e769570eca4f9b5d1ef4804accf5e8cad053d0b8b2ef57091634eb2284f96fb3981cc91e94accdb4bcac17ec781c97a797ad44a87650d1eaffd713 0x13b606103fef370bd5f1bafbe749d3d6acfb5e171465c99b95cf5d97f5d0c0b18f8db092f52a68a0466e02e9ca8e066d292e611924d86a5ba367cbc9061b72d8840 0x189cb7a946ebb16eb598b83819384341789d4f0f87050154ba0be6e5f6838a04bde77f599c952a63cb01cd6fd58cf3f4a6a4e805de64b1d711a276e9f5c4be4ccf9 0x1 (-0xb7894c3a9d76d22a2a997152d172b7df127dff76e7b56e5273a49d8d8e91ab0062e28af42995cc517104bd2ab9908440f396aa599d0005b28c4f9198e144d40550) 0x13ea29c93ecdd76a0fbec27da846afe684a47812264a17a24bf3a2487cbd8b65cfa2aa891f3629ac5d62b84676697bc6f8ab5f611713d3f5733a00884abdd0cf4 0x136a8555dbab332b2bed595ebe1e7c49621481111d0dea160bf432ed6f57f5ead787f389f06866ce14fb080b366ee9e5fd3cffeae4eea2ab3eb4b2049a7acafba7;
Dbl 0x715c9008d5bc3e320ed8cefe155cea235af2c299c4f71ac41e1e5f26d1b1615facdb8814b0882247222dee2e5957bd714283b1e41c620cb410febe708bd3491716 0x17ab8939d44691b6141de8dbd0cc640959931dd3c9878a6654ed001ced01b8cd947e1191599011d80ca8731070bd806f931348d7acd79b09a47272ec59646e69daf 0xd29389fffca261241325fa595f6ddd2f638562b91a040fb497f01ec218e8a93ded926ee0abe626a5eab99e7e66c9e2a86beb9a13d3a6283d26146fdd629c45660b 0x1b65d0551e36dcc0815303c928e96de5ee718efb9505229ee81e8b12086ed895ba3416be3d6b27a9bfe9763a5c1dcb5b2e6b7eaa1ca2de712fd81478b3ba4193963 0x1 (-0x195b72173bd6dc530c8c1538bac678507ceb2084fd72b1de0b128c59a95349ef34aef1561c54b4348396c9580fe4b8d32e526646ff0881ea1f6c382961e252e28c8) 0x19196c4fd209df7b5ca28828509e84a181bb38601cf98ed23331d643270505c3fd6de70f7ec47fbe599f6abc9eadf0bf03f5848b0bdce8d283777f8469ac4555f1 0x610ec7b5415a949f85d9b4f75d263cc594e2900befb92e917342fdbf97203f4c2d08aa5f9b4e38d8022098f4f4a14fd1c906fd728c85fd04c736fa0ca6fee51ac9;
Dbl 0x1eeb95270192d05ca2047b24bfa232ceaeb459c71e4c2254df0784019cb89aaf9272b97f799c90750c5c727abdf00d1dc450a50d457ad8916afd972a97913aa567e 0x324bc043f1e04269d1824b28a71101d18edf6360dc10b2b221cdc478d6fa21c3ebc8d1b679f058192c7265ebb75ab3e95dfefb60be253c6bb5d1a48c6847edd0e3 0x141992761ed9c406f54b9116ed9a8252d72f3719c92615219473818c351bae2cd87b97b3ba50671c724489ede322c45f14d981ac5544e80cd3ba342984e5d49e112 0x1486cd3595288d8f7705c429465b53ec40a5279dbbc67f3b32d023d55f9216b155c18475f1f10c5679e14cb1b547d530fd335921a0f54742e91558a392dfef8cccc 0x0 (-0x1b17740c744dd5ccda3f30c74f320b8e545d0ef13dc2aec2db1ce5a11678b4ca908d5fa0eee8be96e32a5e71b1cedd45ea4d5b302433830120c92c1dc995abf7df4) 0x1de07e02870dd1350aa25de29cdd16ae61f6ad310a6a2b56ecae3c3614fd2b3f0854512668a4753649a0c034a726696f1cd438b7de96ca4586efd0f3e4b252a263d 0x13d57e01ee2361724431630891a5b1024c115ecf25d3a0e75b54a3851783f31560ed6283eaa80af443dc0c49cdb08c8f8c8627ccb38616ee02cea599c8ec2d5f2b5;
Dbl 0xb8cd910c2deb5fe2fcdb24c4ee6d919ca8eda0b4ecd9df05c680b58c6cd4eeea74ad4ff49402cf8903516d2b5482b7224bf32d8e693b1c3356d5b4653c3ef26d1a 0xcff400a01919a026cc9c8f59c629b6cd623909e659ea4b4aa178441b9a6e4b4290b8965b5bc6d4dc7807958fdc42ce28b7683df70ba5e17023dfbfa8c0b9f59031 0x9221639f519304343e423805cd95ec312cdd1a8f417d87f2064c9a0f296c4f318ec39505e29c0584e15bb762074d52835b9da8cdc495b4acfa09844edef77fa34f 0x16257bfa3d8c6a24304e5bbcee0e74b042ca6597a822667678055805d3c8bd6815b103b5b1e29833cb46ad05bdb17e5c0a696bd69b27f5afb91f1e4e3a78df840b1 0x1 0xd955cde2d455884ae6edf7051758f7fcce120f11e9d9b9e45a6b11e478a84bed4af5115b48831ce1699d6ece097004accd27b2cb01b34658127c23cd30ef8bf030 0x42b412c990d958b36af859d574f0b5c5d82662526a5c9c1e0eabd313d774f43bb841f890f7d1b3dd7607df7c1e9d3f4be3090928be6ed017c7f744c6f63e2a0b53 0x7fe5cd63649dae8e1f3e9ab6b40f25e10e7375c14965c3657b87b117284e1c975eca82e9b3dc453b806c389758e111f9725a6008959043dac3e4aa1de230b59567;
Dbl 0x586337d348eb586ea31aa4b45edc7ad4dcf12663df4773edddcc0ab04310be69a747aa5579d8d6fbef235b634340964f41533965423eae7adc4251832927da9432 0x1091022d6d2f065f07cc2ebc613f57f37009806a369cfe05f47b1a3158671c00932606b9133f7651aed47836ee3cbe030a2ad21890e8df2765f6d9b0c3c9185544d 0xc1a012168152416cd24a6fff2c26bc9de9634868ce59426e6d1e90c7ac0ed8274943d7ba57da4020a633c4300af507c1489ac5bf2947e68a1b292c583514c45ed 0x1c6e3ddc946293a364fd9a393b234379661a10342f01a6aeb59c6a10613fc8b395e582aca27cf6fc18ac01220f876edf814bb1c6dfd17eef9c472249c8428703be3 0x1 (-0xcaeea55814785da9d57459236f5d1195282def236a58601fc7ed20cf0bd6d63df4d320223c73e29977290c3a0c7eccbf520d484514c0d1b0ee0ea7e15a1437a6bc) 0xf422e6abddc55446f368133b56a524998a8a4ad0b966a4329e87f5759f64ad5941ff286fd42904a5e8841cd04f83c7f86142ac225dd03e6941f9365f20e7e9aeb 0x4e8750c72c7e4fcdfeb4211465752891d740a7b9154dd6782b17905138deed8846ba55127ed63c49aaaadaf64e1836ba62979356ee2ef9e2577a4ed223ebf2fae6;
Dbl 0x30476f54dd82dabb407fdaedfc21f336a6be87343bf179a4f7a624c9b615cd8906ed2acc0ca04af49740f79e2eb6b05570e7d4bef2a8812318982604912d5bcc8f 0x6de97823f8c38d842f7aad59e87da6b820a19c319330820abb03eceb67c9c8ee6ea2500f121dbf5ab67294b1f1c30037d970840e5c142c3e23c2453d609102b570 0x35b23168780155070d6f2efe425ce12ff4355ed9ecdf4f9f7e8feb364c3ffceb86b2b5ac1cf81c82b8a8b5ec369cd0c0659090358d569c9eddce5bb75ea7b6bb9e 0x9b26aab2da2cd86c4d483e6c2b77d87edff66a71d69f5e548cadb62a1ea7f71ac3be1b8221d9a5c036d4eebcf208dff8c93c9d7ab279c6383bab55cedc00829edd 0x0 (-0x199635d07d32e6ddab98aafa9c7d6993b454f77ca21b135921e6bafed25cecb7322d109bb82853dd062fcfb912128aea976a31f5e6621a8815c9c8e0c77a1d7f94e) 0x48d6ed76247526a91a36b30085f2bc34c7b7bd55c2fed44793fe7e5c63ad89ce45a0444305e9fd99add490557c9b4c0b57a16326bfbc26028ca9bbd065cef2629 0xea1459a09bb14ee6df94daf64f6a0e74e581828ae3446718f12fa5ea98b1d3118c41e7ceaadd7282c17b5df1ca9c48bd91afcddb3c11ebcb815980c0d47e52818;
Dbl 0x9d37c0ca4d07dabfdb539ec6a49d338e950d0818f3b19c1047d8a0f6938cbdf02896faa97cab31e59044888c6c9829e0578df92d9dc5ced81c7e6e68b0d3e7935 0x3999c13124479115ce7fde007761f54643554a9d1cdb699aeec305e12b71c3c5204a92d9bf09919ef9d0ac68b58a5b7c7f6cdd6bb564fd36f55f56b5a41bc0fa77 0x1590ff53eb11534ea4d07190a204ab3b12b1945580a305505f9a8489b5c06c4e3cd9ccd7687be378127c7b5adf6744d40111353ccd394b370ac25f890e1c271ac2d 0x344fb6f2d47bfc6e60facf59711bb171dd4c51947655186fcc40e70a3c5805294e57bd3553142dbbbca1e8493c38a4bb5a03a6a2a6af2f072e62ee87bc7541baf9 0x0 (-0x44b95837755ee23771ba99b3a94e3e0337915ca2b582b0a259e24203b6f42dfd493577d0eefaab332b9ae27ca916054ce4201e9302b76b1f8e0aa048307886586f) 0x3046b74e454c678c6093c423445ed94d1d3f1fbc828e042a476b43a3f858cffdbce5e3e7f37085c7e95686aa322e94ae71061a0111ca55cd0e52ed48ecb7405e 0x101023dc2d2ae029da7da48e0b2e7588b27209a82cf438383d036b768fe28e60377bdb6da6d01c07706a34b02180961098013dd89be4a60f805cf233324df013e;
Sub 0x5698ecbc6ba6c80ccae6b42f1a7847be7aaafaeb0b05865b3904185d4b58a23c7d63a75745c5d3a5549991f79559593a34aff71cce347647b40e41e63751977778 0xe560a89e6cdf50fa72726dea1285a178ce0997cb38f664edd92f6bd1f42c4aca883e824dd1373dd76c827e52199163f59532172d39c6fa66e6bc3de461794ef20c 0x12769a9387dba2e8a3684679e05c2d2f941526e108365cb13c3391e1d73ec2e62c00e27994be3cfc4881a7759d42e6d0c76792e3e39be80bd1441e8dd141729f2b1 0x154391892b768401b5c0d701664dc53cd754bb2d1e3e504ad15939a0f374578fa980c108bedd253c78d4e2e169bf8f786ea3ac63e7b9e02d00ea318d142a272086a 0x1 0x17314332a6d438c2c00e19f35113e5f9200b8e61be3d629e5cccadd31cb06768765a9477b4719aa45d0d28ea78de75bd3a13994b7f3df92f45965d8377258db3d10 0x1 0x3ec33a2b2ff8b9c560bae6820d5cf915f24aa3c6ed578784bb186d5ad2cc53379cac1b047942a65d990a71b2062cd576f5ceafb4198b1a0cf21c00ba5dbdac02fe 0xea58d34497feacff94b19e5dda7dc417f5fafc74b3a5b50931e63e830ddb9280582e113d09dd25b3c36788ddbe50fc6e0777854344971dd2bf660ef6f40a4e1a9 0x398b356376305e35751333a5da04f47430304122d16fe4660f3a8ebaf869558cde0377f78c4996025f6728b3dd0acc5dee744e8f453a6b2c049e4c6c8431b8672e;
Dbl 0x1e9b9574763d0118b27ae1244828c53c22d028a38f862ac81ebe9f779bff9a13f89c8960b5c2ea9fda6317cc51c57113d4b43a5ec0d4df28238bea4720435533911 0x5621f4389205d0ca0d20ecfc3eead1d4ba002fa18c1bd5d9b65e76d4211fc2e79f6dca5fec5687c64b833a81a45e8daf63c74367badacf3985f8adccff4811aeef 0x18c3e35eedf2c8a5b2ef4b94d1db10040321aeb0aa6e9d3fe002ad1e4fd280b786cb74db85b8a839b61cc76dde20510e42a49ef2799cd4e2b77a8b1d605e542fdb2 0x8f3eb465dad98030655180edd39acfa414096829acda8f1422d0f4fdd30c87e2e8d0b7ede4e0b61120ff43d07532d646316ad3c57eec2b2d60c3901762313d431d 0x0 0x100d5990ffcfb576d022454019bcc183f3a4ad1e7ddc7fed980c53adffb308f38e377e0e2a2b60c8c3104210e77f549af8239902cc5c61e16645c49a68aca15042b 0x1d46acaceff205fbf747ba11b4c5f2eb848a2a7404256907562b37dd56435412f305710728e9906870536d2956b22a76301c81d11e7e8ee30fd42d9188b22f0ffe6 0x89033dde971877985781bfbda2c719041a2fb78bc1a9a4129c0ac6880ea6b6077e5977e4dacd172cf7db4c911ef8f386dffd51651a60f79a285e60ac6850030676;
Dbl 0xd4d2290bf89d66dc7f2e4289408d9743eae95627fbfbfdbda5aee5bfe45ddfeb811370ac1c6413615dc4b1e29d323fc1f3988ecab7d8c295e97f4323d68d4b309 0x130e3f7dec39136b700783d119d74cf660a0a3eb2dc0385691c3bbf1442c3b49d77a79f1ba483012083e47edfbcb169659c0f85cef3298c218c20a5e78f12e895a9 0x1c096c144c6de16461b3649fc507818871385ea4fcda879f2a41b2ba8247edfbd408229c61a5a5ac8e198867dccf1a4fa854da9d58ba6e278ba82100d2494b2da07 0x1253dfc59ce749a130ca8afeaa176026eaff5f0eeb01850709a22b7bfde5c0e4a27c62b4447d386a5c79ebba1e7ad2449c7b7bd98c7b14317f9d807e57035291945 0x1 (-0x16e1b1eea9b5f2189c7cdc5f4652a40298921c0bd6dde5d162e99c3e21dd9cfd38a4bc21bfd1c6dcc579611d2427cdf573892b5ea2d3ecd309d627cbab32757924) 0x5876604198feb565d7280aed62ca161c66206587c8ce075d4260a114f3685c3b66f60d7640413baf1eac0815e2bd23641713ec06e52f6ba3f49f29134eee5d36 0x79e4086c02403f3c5f2fdad38bf0289c20b37f5e6c6179a355cb3383508ac94ec957f093b64275b6d9fe0d74c6fca9f5b512004ac74882b13fc0a254ee9b4b54c;
Add 0xe01a505bfd0d15730e369df3f20f01a1bee9f1ad50835820f4a02264f8295b8d1980948aac8310d8dc0bf5a54d20a09c9e5a7d0a6cd3f541e097696c3a01ae521f 0x18fcc29e79a83ed3f6a370a30c4eecf5131f459ea46a7cf8a6677579855999adc4713aebf39bd1ea92389801df636294163623e56f64dcafa8f5341d513b4b07869 0xd1121a08903b92805a9a029b7f26eff52d6f68406120ecd10ce24d5dc5cb1f09f55ef9c1ce2730f6253ad8abcb9b8b61f18efeef1ee64b30085f3c8f6309330fb9 0x1a117cdf7290d4977964132e0d8860014d815e4c8955bb5deb5c4677bed2a19c13093f05c6ac5e277605afec1c67b402438ad4777fcdbc126fccd64127b5e381d3f 0x1 0x6a5e69d80c8d31cd32d9fe46375139b1c76dda31a2fe45b3fa439664e258675fbd0653bd2c9319c75ae6611e950e69bcbddc3d1b31a421def02727695d5002d843 0x0 0x2e8ec5cbc25a59f9513b85223485089ede60156ca6f01d30eee364f73d686b94f03521241f89631dd3b68596c6771d7a2f93c3b91a262d0d6814b32acb1ab9cd9a 0x621707aab35ff5b3e18b3ea0ea23d534e6d150a9eaec8333112742e878edac2b94abc2ffd54880d280bfba162fc2e5b06efc7a2d06d955e607a5ae09709002ebb7 0xb68fd9c83f918b837d158c7513ccf2229b787fa7e7644d2d2b945b18e64d0dbc140f5f1e5c02e918865b185f030335b430333ea817e135682dbc2664e21bea311f;
Dbl 0x1d4b63e09ca550f8daadaf7c117a5fc6bcb53a54942d67f1bac2b9d35650fcfeb618c3f539675b07d5ca85c23530b9c24351237ada8627f9884c88c262d6b01df85 0x105569daf17f077a9dbbd294e3ad73bc4753d09a435cefb9424277db8b140b1b87b1cd21f7669cb119162d9e3af1099e7d2d7d3b8095b8381203e1ad28576620823 0x8c82b46865f25f42188eeea3aefb1c040d8d6356b06ac2879464c8c3ac468a486cb31fa12f518fb15ffa4f4031345c2690d833a7fb7677be986f4a0c764b3fde0c 0x8a758c38829375958e79e0e28a17938cbcb7504610d8d3f6424fd9dfa458e923cbf6dc9fc35353979226a63a47258f59908a6a9eecf247796f1527028e3e4e7046 0x0 (-0x229c3270b9a801194f01caec4566feec200d39d09464757e4b742a2e6dff7f379828a248c6d33b959dcde6caa7d4c124c0f5430cde4df42ac1f65e705d4f6dcd30a) 0x1ad156a48085db81891c6cc5c9f893162d437d1dc22b481b6d928b2c82c72d6f26f2b5759ad1a5311325dd831af08ec7dbf60a5141f0b3589f74167db0e2f8ffddc 0x7ec0babb613463be7b4e9921787cde5634fd39d31ddd3d873a670f72e45c421f22bd1be93983bba66369b156a233afc191d6e039c119095250b0b33822ef9f9f67;
Dbl 0xe2941f2d4b4d693d0ee31ddd63af27b04b003b3514fa587a1d4245b96ec079a42c456627d478f5dd54b4da67362e13b5837738d8b97cb2fe827f9fad95f1c09a91 0x13d57fd2580686bd0ebc120ffbb1c1c2b42a44477dc939b972930bc697c3f87d98d4a7b83b79cefa328682652fdc5c9c4974507780fb342aa46d98081aea300c921 0x3024b5db370d7369d98c427660abe8d4f97ffd18e4713dff93b4ba70fd44c13515a8ba4eeab053106cd6804617266f7a48295f1f999b00a7c0ebc5d27e2326489d 0x1c7fea08997880bd8effc084e7fbb1f993298c52c593b5ffcfaf6c14f350129deedd2569bbeccdb6e68fab390b14ad0233b92cc3ff9a840d6d9649a50d6d3613f01 0x1 (-0x113d1e84edfdcec2f7e552a1e6b6eb2c08e6ab197f8c580e078a93037b22cd06fea6514f1796f0c220a351e12a7c9ba3fe9c44d0eb627aa01233e2b122842555b40) 0x6444ee60048fdfc8e5de39bcf4e3e7bc5b51ebcd93ef4966972283bf3e076a55bac1ca5d013e75ae18cc9330d07b943936b91263256a7d8e15d8300c0256f21346 0xc9cb503b6553095c223897a8f3122263043e481df74f21b4ec80d11e6e725c7bab6c7530f6b5222da4856278cb84d9462e6deb7aee3b6b76d04d1d6c4a02aadd18;
Dbl 0x15d0a6cc1068ff7396ff431880f518797d318002d41d4840ddafeecaa7ba29e67a9aada21402bddaa4c758bac3cd4023cc39b8b68ad44af47026a44085eb4196bbd 0xbe0754828981676070d269ce4a9d67ad1f0c59acccc7819b3babfbd30486fb719c641033d6800dac49bf9b73a962eaa3c4c34fd577f29aa12a958721d67657a7ce 0x6bd50c49e8b0cfc77c3dbb11694f405150bc9d22611c8562eb192d5da2a910cc4d0e8236ad448e87ac9ffcc3f42039fc0aa6d3eb670d453c41492c38fd42a850b0 0x7f50a8a2f6e704707aeeb731707eb47e2397eacb0fcc19fbed84c09677b88c67f0e66b4fe11ce1f6dea88adf5462df20d281b7a297c0a8091c43f95fd82ca92153 0x0 (-0x20c7088f4a07d894f3e5c90b22afa0203452deafdfc3b663cc3f9905c5d4b4cc51e2fd0158c7367576411c1af15b782f36b2a7d11239ac966b13a82158ef1d5f312) 0xedf2b6797c963d3324c96cdf4146b11a3561d96e92884eb27651f9c6119f87b77acf5e1aa012563e131c504429d12d10320b42c9c3dad6a7c03005745fbc17b087 0x56cb12916396fb074317c902368db668e5f110a1114a8139f67213025eab1fbfec9417799062a209aca4e3568abd7990d2b9adac909f133fd78812d1cb1ee84e06;
Add 0x7b402328473ec4ed5ecc68c9627e7319c24e09678278eb5239340c91869cb82c25187b5aa120d232da2bc36a18cb6c907553eb2ab93c709a307eb5df782aed8e 0xae477d0e8490b6db7575cbecc7af9e0936886643a637ba89bd576f2a0fb4cc58ac06f9da207da0391ef2999e37d58952dfcc9591db106159f80aa5118a6682636f 0xa8ba505c9f9dbe850274cbc49fa39555f77abc664ddd175b042fde4ec6d45eafcdc0afc9f78616f83cad49b8137ade8f897cae715c0036f4db8a634ccfa5a11f70 0xfbfd77404f0b084fb5c9de182edc9a3e883f369268fc7117e548ca8f4d22f18f05d1659b6026d732acd01d5718d6150e4f6ba439ce23947328ae2104c0fd5445f 0x0 0x1f781c67bd27d6276a3342b02e479d1f8dc6ff52b93c241e619b3d323a41bae33e1c2c4d55e90265320c17db281bfeafae6900721b66d305e8e9c08a3a4b371ea67 0x1 0x7934bffa89d0a0ca2486bbb4ea99863579cc84bc436f78a87749e580264c9e8dba40bf3d066ec9a0988bdaeee3f187bb368cce4919c29aff9d588bc0e6bf8a3e 0x1dab58ed26b6fd38088912cf89751a0ae4661218a9735bad53ab4414a8384c734674f06828ad33195246f981644d4731acf818781408903ac5c246b0b78ddf 0x3ca8f522818bc8f454f2e036ddb8df87331e187fd348cff64e805b9474be2cc06a5f052a7449f68fe28d0f3786a83fcf0b8d2549115b563224dc628f01b906e;
Dbl 0x3baadbb38e49c3e8a215c9729b25a2cac88850fd22272ec2cb946f7dbe299340a955301d0b8d8e5e670235021fc1e885c4fd1aa9d03258c16ff3e233a6812353a6 0xaada2e7967dc68834dc6b21226dc9a533582e6353d817993cdd233a00f06f376507ceea69d5c6cdece65c818311b2a197193693fef0841a3df83336ff026a071bd 0x13f48eb54d037e26947f39af83b49642f1ba1b2870faf5fe97f966295775afd88426c697bc716bca39c3880a455b95115a6a2cb1bd0909750f60a523371588f8919 0x36d4e951cb44e5827af19daa0d303b60105800e68b640f5ef853b8a00add8e25b8a0b338321335a508cd18606ba5f396e392c51ec081fb6188771a19a3fe1f1b2 0x0 (-0x8aa455e511ed68e381a986bce9893ee04c6a909a48f309d9e70e8dd198bff690a76698d5c4a74b04820ce3184c3fb25b75e47b55f4239f218cbbc701b9f9e646e0) 0x6f419a6a54dd6d3f58d9b82daa2047c37b2a700fb92cde5eb2724abb23f19372b604146fb111f2052778578d48f1c530a8fb7a5e63890aaeef51c548facec28f7 0x663d51bb18defe93a7ae0aed702b57b9be971590f334f7e6f5ce830584b47540d1a25e6ba30f21d5a6d7a7918e33765c51ef1540538a1637528ced6a92fb391d;
Dbl 0x15ca850e37cdb03d92d7d32304c7e0c80e18d7caf49a790bb45d606a50eb4234ab477ea27b755b89b502f0215e9fb78a0eed94036f2f0301857a07c94e74e0a36f2 0xada1eb807bac7814841b73411a76d145f19e82ef0dc80d7946463f16ace0de0b60e2e7e09ca217baca52e066e94b4efdad2c8b1092cadb02743bd054ef5ce19d06 0x10400cce355f2a557463a0f3aa6bfdd045905380d656a9e670b5ba20942a0f53cce14c077ae9de945fa8fd563767e72e31a1069a8eaa7a7ec4d519825bb94739fb0 0x1fd3842f8ec2ff06ec9ab3ed10c65c90d43e463462fb96c1a878bf4896226156aef9a06c600ba55240412e7b147cfdb1bc466de2f5c3d66a16b47631b00c9bed4b6 0x1 0x107cf4d2199e80e428075807a8aff95d3e1fa74e398d3db6f679760f1b2449c86bb6a288fe67cd5a7dd4a5754f3457fd2da253aefb436c8f37ddc15c28f812f7154 0xed6d054a5fcb250d8636c5ba0a3a1a837dfcf145470702b869bf9c3b800c8132b66d7a911ff1818b745cf5070b92b0c41b5d9aa173d322efe9ca06022fdb6f83bc 0x15ac3a46e354c1f0728e66a2c2f233aba8d6eede70b5ace5aa24d2146f51366c1179f89dd761ba7e32e96a4c7d79a890763e41a3a034acedf1e86b5796232a3b0bd;
Add 0x1168f86af912666a7993b7cb0ab5d36cbd866697f14e2585fc9ee09f1051dbca3196c6ccaa1728b6c597c2fdd8a01614fd7b442413268fe99cd0e1e1dd035a1383e 0x14701333960cdf2596f47bf7257a4914c1a285bde523f3be05aab138f4d5225a93f62ca2a4bf026f082acd714ba5b1fd03ac098654c89cc2400c3d228cd85e809c 0x9201e59d3359a716f4abe84f1efe7de2ba386613282d4da189f7e9c99b744e010813a56e28c426035f41f7aceff32188e7dba3a6d6db7b136e7ecc8212d1f86f5f 0x9931d84ce59f98eeed26f749f4fc88312ffbfd3128a419bb409b8dddb80bbbb0ccecbb3df7e3154bc22812f59da59d00a980818a3e023e40342f93326284831c6a 0x0 0x1e71c5d79c4a8732ab67d3475b4533b91af021e6dd4c2cdc4244e16674c7590cda6419c8224b23061a154c2a5c1a84f54cef9425cd14570bfd84251d6bd99fbdf9f 0x1 0x10904f350ae0ac6692f9f1d28294525c4dbe1b217fde90e69cc440f2404dbbee1f17bccc15c6aaebe64b17e93349393716e2ffbe6ab1da2deacf85264c702b848de 0x978e047e871fea1b54275b6fa2f61769d2e64c38eedd358f659aec0157513bbffdec136eb79d73f41df0b7be2ebf0ced8618f87e74be48ce96930e5e1c81ceac04 0x5359022a3dbb73aa1b02008e85e7b44dd060b370cc1f3616f1eec5ee6579ff2efd8819d39c3f6799bcf6ad750b0b6b25e251b0d596d21abcd35d29537ecfc9fd63;
Dbl 0x126e17ccd202f56fc57c568cfb9ff1583c8315a7a2afda072a3662bad01c4ff002bda09f3722f8774b87e82dfff0139346b7e166feb72063094a5b07dbe6fc59d6f 0x1371448e478c980320619ec1d755d5cff7805db275453678c1edfa5a043cb75a20b580e57ba839b6e3001fcc19da16e74805d76a78fb341997837282fb5c053c914 0x1766e713dd6a561b0bc8cf980c2fdbaec84f82fb489f6aa9b284eee88ec8fbe29a7cb0f0d2ef09ed8ec9f0c6a2b97ffa2dfeca0ac5130a23cf3e035824467a3748d 0xdd5bca4f1d435ef390da8fd9b01cec15499caa9690d08c31e6cb0b98b109acb8889e1e4aea3b6700d828d0afae044388834e92dec5155b28c7d514f2d7180ab787 0x1 0xa5bc3a71f43256e8e1374d26ef891c1c8d556d7debf361a34ab45d7e7b14aeb8ff4b95f8c8c5b144ce91f512c0b95355b277dbefd3f3eb9947f62091cd414402cb 0xa9d558a1e1ab554676a6acb5a81b0489bc6391001427989f9b04c178f439602ee6bb10fea4e3a93171f5ab011f36a8f58920316115100d8225ab2166f98169742b 0x7f7d31f6bfbbe99226e1debc0b30f0f45445af74f1e0d8dd7ab341142d2114dab31231980ed4b3cb55d6f1fbbfa96546ba095800bb9024e98fbbab885076858563;
Dbl 0x1ff906b22e3f803f7b41efbac013339bef220d762c4d09a2cff66fea90e0ee013850d6a6687705400c3caf69b5fefccda1e92e5f71bbcea71553dee663bba206d14 0x1d333e63404a13340051932aa9e6c7480b1d8ff3a884e2c70e17fbdf7ab37cb14c63ea08950d9455797b9cfc0da4deba958896a50b4c238017a40f98112ae5cbea2 0x2f54db6482b601cba3d111ab5628f09c12499d77c5b1400a99bcdfd046ed47f3597aac217601bc1a86b568eac7cb3eccc299af9db590c3191bb2fcc5633dfe4732 0x163e062b074284cf20100b972d6f0e87ec62cdbeccc053b1b3d5fe7a89893aa8d45196dce69aa561698482d00c35382cb27d40c56daf10997fdf62eaea311f70a71 0x1 0xb5363ecb72c6c5f40e26ebb4471a307f274d2fe0d65d73f9b7a990578c435dc656fed1b4f275d9b0d404924288e7fd1ea552c19efd43e0400cabc647cc98aef4a5 0x1ff20ee96ff17631701f91ca1432a148d6c8f72991f4b26e82a5657b79b1d0fa88e3f044a40d79d6ec65bc6ed20d1d86a6e3520096a6fc1ee9b2ce886a9ab8a473a 0x16392d4128289b152545062c8b3f3b97b820899dc4136a5123d3e1ce6206cb786f0e23955222cc2e2cdd7958a3eeb6b7754d04a088f3b2b8142f39b09c1a6c2cdeb;
Dbl 0x5a2752e6bbd20b40a0f478b5729721ee135b0323c4550955d27b4b57690f6b770993fae3181bfa01c0b77d051dc4b4eff87b7fd6a716e8d17fbf6a092ec8bb849f 0x8cd3dd72f9b2d40a80f9fced1872d289425b89af33d1ebea01f85108659b12bdcfed2cb3b23e98499dcf829e6ac3b613d071dd1a85390d531db99440d15f1bb376 0xc887728afc7dfbb2d6c0c66d3a00fd07b755aa78bdb2d80c082a24e54e9afd862b67ffca124595c7a2073986b2b73cbaba24aab18d2fcc2dcc719514dbc3dbbc9d 0x1466008c10aee5f35841f35bd85f9a1f76f7d758b547c4086df876cef459cb856f65173d59e9aad0df9ea4d226f8a359588178d362f892aae5c876540414f410b2c 0x0 (-0x4ee4e7c385f6e33abb59d01963f9bbfacca29bb94ad9116f938a1b85df9aef9d800470ffb67bbe18843888e541f380554c45dbb24f25ede177349ffad55ff256493) 0xfdfd62a4c9ac518baa58bb089121477bb2d4f490af122d546862c941fe1b078d7693982a2e26e8f5d75b1bd68ee1f024071efec044619c47735bee33f46d6d5f9 0x3977f2b30fe50d1f1a9806e1831efb984a0827b9ea7b6416dcdce0942f58bdb18c4f8bc2cdcbd1e41cab408463445a7c5ec668bca659e39dd8e6a101abb58d637b;
Add 0x19c1aedd65caae58e6adfadeeaaabc9683176015287cbe2d2878c4e39c6c5b5debc239459522367705ba4931aa957687d3c34a3e64ad967cd2c7b13f12398eb0897 0x13bff8e5835e1dfe647298131611da675945c9b2f9c77ebcb701be960f8216d3be3599af941eea9b5891a304d499f15ad31423263e474a42cfac7f24af7d131d995 0xc9939bbcfab0e207f25e200c1355460097388a9987690cfd811bafd44024f8c0a6fc445cf74b0a57c5fef187d2165f5747ccb1b18cf347b0b9575760aca1302dec 0x150d44f1ac3d0f42439d07bbbb7552c13adfeee7f975a001e91dc67a76d79a581ec9391ba704fee9414b552512124a0669f2faab6a0c4692622f1a1f5d98de9d9e0 0x1 0x1c64e4f6c42aecf20b35bbe21b24f3cd4ffbf252dfaccac34e0002859052fc580154be1553a4eb0f074d164dd4320b66af23e9466c3b3a31081c015c29f9c35f60f 0x1 0x16daae8ec9ae092a0d6ee54574565281fde7ea8a50a6a5b0f9312316d5f14a2a4555c085d21339582ff8418fc04088ffb2cd32f3aa6a70cb0cae08584af88c0bb74 0x14bb3582f9363c056429d382c35d28f5c9409ce4124dfa0f63b25ffccb560572ac710ac96d4c14dfac15eb05a848761394005a052c36bae60ca68d270b4ddaf8160 0x10f1c8ee6da3f9d9f575a9795166ee54f627e563712c730fa12d6dd3a12efc787519288a2252727bce06428d99759102a5e074a0704c59c2cd4ff08dd1e60ad6769;
Dbl 0x11d73085d7e7a189057f438f75e89e474d1024af540284e3d83aafbbf69595d07edbd1e63d5aa3d918f3a7a3e1db5aac5080e730ae834665182f231838e753a621e 0x1a473621a8c893714e4740460f33332a693d7673fec5c1457ccaf5f3a1bdd86d39667dd0d24ec26538a56163c0526cc6c5d27ff7146c709e65c1019428bd2e0b1cf 0xfc693daddd815a656ef138a9a8ee422c1a9e49f38c25dde7ac546dc0f388d77f43174942c1f3f2288fd28f4789f89a26582602e393927e0f5db2c099305c83b6d9 0x1978c2c3da958a8d162b57cd06dea73cf008533efb01bd773a36c8a26dc43e6684cf1bdec1d028361fec41a1144784940d41a32f29dad9a469eb7d9086bfe5127c5 0x1 (-0x1685272d85f28f7d0ea4d92960acd2e4198df8a4106a3038dfd66c458987716c6470de5bea7c2612b2c1382ce17d060901c9b9225e3e259449550f10ffc477ba128) 0x9f24aa2857f0bb381d200a8552213776a8a33277918953dccdec2955cbbe961967c29278a9e9e99ba683e5a50b9af0f32e4a237f22594140bf55a3e0336e116975 0xe3371744def112124c97d9ee27d273dd288022745a396717478b1f17e55c7f59992ac15b7ae70b9e48e70911b5fa2d5b2ef0bf3517289d03e1b6aa12041355d1af;
Dbl 0x7a0f387ea87d8105a2455c744291b5b5bcb2a38fae463305a0af1ef30536d27032222194f03389ce3f27f13975ee8e47d84ef610f75e5ea7c83c8ff6bdbcb59f9 0xa267d6afa516bd9789b9cf4d0ffdf6e43f5b541d19a61889559f7f3d1bfe1ac7779b56860ac74e42ce2c5149b91a352594d4facca03a717aafb608f8df578392a7 0xffa9dc0aed919ff3c8340efcd561aa34b8e43adabea773d001907f19a9aefa12da499daff36af937af22110927da3d7961297ef470c3586b20a7d8a2d902bfa9b9 0x1020b8b6ae772797d5aba3513e3353bc2547c1322d2b5fbce770fdffcffdf6c0c1ecc86871a24d810bc29c4f24c0c9746c85304a4a68c986bac5a1049ac7b5d1f28 0x0 (-0x4044aa24863dc9460ae42e98c15707802a7edf42bea10b1943ea0dc10848dc08615424de43087d0d9de48dc670974dcedc234cab2799f4d6201701f285d0a42e402) 0x1d19416031f38307d81ac7d42fa75e4a27ddd340c750210d346d4171a4c65d5e04baa5adb6decef4f4b23c8b887776e992a9666e0f3f510dd53aac5926bfe214 0x3d846c0827ca1a0445511c4f2a4f3b008f81d0ba55193c3453733889a15834abed9b3cfcc4192422923b501db87a7603688334bcd0eff318efca1422b15232aaa;
Sub 0x7e9bfb8b087f502ec458488dcf69466b4fc3dffea2fac69505a0d10f20eb8a5d59792bc0bad04a1d205d85a1e95de1c59d6bb48d199e10a5528fc84d880ba83fa0 0xc66b0e96ae306ff10398edb351a7ac33c382ba207f1bee90cf0840c617585288154f7e789339278c867e1612fc85c75a53af6a84373540a12d180a25e9879e782e 0x4c79dd547e9425b47640b3f5f40ecc0b47e726c9e8d52e78da1c692528ff994350a7454114e854e4aaed8be8123d34855be3b70ae01921b7b1b16298c498bf648e 0x1dbfcc818f6e64da68620e199be564ab07bd899fc9a8a29f886973e7704a5c83f624bd80d778e26b647ae3b36bc946dcb41259048690530d9829dfed2f5cfe51a78 0x1 0x1dbe248a8ee12b8adbc1b9081a9da612ffcbeef9be0a0d8d433a7568dbb92cd89bcfa0b2792d766e9a52e33889177357cb6a1b218deb5073813bc8a7aad949dd540 0x1 0x75adaaaf3a2e16faf64e7cd6dc6ff93e4d4904e06873378328af6eeddf233afb852c5cb9292bcbe3800b27e60258542bc5d5109b0d0d5561a7878ff9823671080a 0x1f4ef553b6f1c5a281d6d33aaee9a073e11a57d051d835ba9e3f11f3c045d225dc26e8fa50d10ad9dc981969ad734b129da151c641ee3c0eb103ffdeef5037a43b 0x75b4381e65704a846b127998070409c2fed9f6705e4c6f6d06ec2a0dad2a423e90c55800cd2a7503c0d8db7fa3a9652be8b0cdb20e90f830aed2617595c40afb47;
Dbl 0x11e5790d246a04ca1d2427e0d4a1ad934426dadcbd24ea1c9ebe02fec92bff47e6bbc1af92ae0a28783ea2723b7ab498294a568b0fb08a963c7f612dfd12d014fad 0x18f26fdfcabc562f4904a7c43c9ece05bdb1d76b69b4702dded1e2f9e5d9f27506d67f427d018dfebf22d1f5d8a4a57a3af7bb30a083ba082e5229f0303551bcae0 0xa4b533af5b56a6ba7a949674ed3c0c5fe98514faf859bf500a9f79429b6aa11f466a74a189a64d72de2f5ac5d39c7bd5a97f3120277a25ff00d21c5b9fbff42ded 0x13744109a026b0cfc734e716f87bacbd7e8654369e3d4ebb2e1ea1127b9b92b37a7e78a50c32047a09450f6b5723b6fb6a433b77a2ef9a01e47f56b22e63282ad4d 0x1 (-0x91245d0f71ab3986e117d7b4158b50ee51718fa33b3b43e4f01b5dd21d6cf55084301a602c6d75408a92b04f25d34931ee3b86383bd25e2636e48420f208401323) 0xa023e2c4cb53b42cf83ca793c0dae3f55154223d1864d48a65134970013743190466dbb98ffb342f4d6709beca09c9690d61de6cf5687727a6d5825a57da328053 0xae144161d40b176b8c848d664acd5114e49e10ef30dbccc9d5eab095d0dc88d4f6cae4d27998e9b4f973f5d19b68ba795bb248f00cbf499f45c17c9b67ac9cb272;
Dbl 0x7a14d87d8422cdcfbe61911d03f02d3593b2b40143c0ab3ce73c2b68b86ec2184d472023f6289f00237a78136ef775bda694f2b75aee15edbe6922d6264b392a44 0x14b14a3e51587f72e6acfdc1d6c1afae6d26b58c37c891fffb0deb6f4b5b0673058523fc76cf82c110c7c84107d49ec4a462628f6867e4e8bd274d69caf37ed5516 0x4a30a91681b56b5526c38f52ffd7fda17db1e723df6b688dec7ef5bae15cea91acd7913a7ceda78ef532b2b4372890ff21d0044f177e9a5beced8b445bb583b9a3 0x44125a17963d6bc6257aa0265dd1e57508b21df31ebde2de3c3f78a9a7eec0201515b4606320b3dae5b09b4d0d006b5969558a1381bd51f712adc866541d2e75ca 0x0 (-0x356fc166bc35611e519005d3b3a0affaff2f73ecb2f440da4a42379bd7e9c8aa33f57ced7c755a35bd8fd1464a128c1dfdc1ae8f392ed8e92c55f1d18e3e6415deb) 0x1d1bf0051650ef0f99b51a5638b5e253b7c367a4e33ffb050406769f4f3afd837cbb90873fdb90361893c3d0fc425a93d8e4d3184716460153ba47dafe30e288c6 0x103b24f791c6cf078c3c8ce53b758e068a772ac1058ec3a1626650542e5d8e4ce01b1028010c35d5cf14281fcca99be5d3c98805ae36d864929e2b3103add379e8;
Dbl 0x7dea7820e9de74bbe5bf17bbe6f425de7ef896dd3f8f2fd89cfc7436ea5403006852f29442dba8126632433d90f0e48d437e969606c1e9b1f6eee1de2ae1a4b9e4 0xc12511d2a5b96d84b9df62de5484ca3fd6ab3aa7869fed412babe513f4b79afd9528b17b91a45a7c4c45ae933d21a581f3b46ca26f40fbadac1499594299e02ff2 0x8d4b1d6015f45adbb752d436c7f0d7acc2431f9f36f07792fdad82e1d986d8679036546b0a47277d0f3dc560c0307877f34f0a8b9d817c4b59735e99ddcd9668a6 0x89ef92126fce89a9b0f0793f179630a6fbc01e1bf5e932be8532d1e0c0f8cc32c3298e4bdb53d194c036d57d402846c85271bc54173d52de26603d436c9e0d2524 0x0 (-0x25dc7dc5fba9324826ddf360c13061fb3e2d847d65bb26ae0f8e90dbebf560ea6c02310694402b4338f9b8703a622183af55ba623d7625cba97c39f1a47c2bd66af) 0x1ef76807fc76d414604853571632eec77c3a28de4df5c960fc24bd1a83a8797fedf81734b15ea236576420682d4fa9960abb7e83d89f30e765c8272b0f8e9f870e 0x21ec280446efeda8dd4a14f1e66dd9de152b6a954636d39c071a9ff1991692cc0f0455a078fa50b4caca955131252690fc9aaa2a9d63939a7c4b20354cd07e0a39;
Dbl 0x1df69417a6af2ef292f55bd6fd1576a808a526613663fb5ed11b14ed8696f7f9b4c5827d9c89999c711674cb7bdd10d97f729b914c36e977a4604fc912e1f257cb6 0xff85a00b4cf6288f5cc3f48f0974776b7723735ac5360d7238d816d3503d07c235084174285e3c70e38930ca8a3d59642db42b8bb763dd6b1da84f1ab27310e748 0x1e98e952266db938f626eb3233c7238ac8807a3e5cf97a86857f0f0870da7c651657ec6cc8d3c7fdd92495974cf7fa2e7d200b9a8832d6dd52f55bedc7f8d6eb207 0x1c19f71c758c344f55d1b6e4f4b1052d45f87c74cc169dfcef2d3ce40a47a933b6020700769461e0b68bc7dc8b2e44c1dc6004116b7dd1e428e6c4a3e9026cf48a9 0x1 0x2e04448ccfc112a73625185386cf6e979b23351718ca06c6c248ae34c8f736ccbeb2c29ef7dddc49ed3e66d4c37f43545d94881532b1600294c12f063d2236a641 0x1c0e5872771b21d8ee44c508fd1c44e90ac956b633f535c2bcf4376abb21ada7b3c1fa5261c6237ffcbe236cf670751e700e79b354c05a755a2eea8b61e497475c8 0x1a50119a513c7a74546c150da5d4006f8d71a5d6a1436ad7c6916fa45ac2027e967cc27770d3f081cf8a93d3ebbca1e39104698abc1bd31713ecabbabf565089687;
Add 0xcb1fc4cf20fa1c110d7d1f44b39d85d01dc0ed5e57570eaee0ab95c80cbb1527c78ee0bfda02da3ceecaf41ce5ee159db62798bfdcdb3f33d3ded19dacbec51bda 0xcc5dd418db31d02f80105bb5d258c99765fcee2feb143ac0efbf75dc821f68533c7ba48e4f673e2e577b99e0cd2b9bc2ec8887421029fa8208b54a2ae5d6805de2 0xb633112891208dd786c51b55cfe121959f103a4c05cff1c17c415d7c747f3da5d1c1e08db0589960f639844c19cea66e6d12a4b30d8c28a472a4a415ee3ad255b 0x3327cbf271c4585fdcb398d9371badd41126852ada21d2b14918a0f6ce1d9f6ef88c9ce5d8f6fe428c0d96e9bd11bda1412ba449a739e2e914f304efcc9c908966 0x0 0x3900120495f223a58f25b5c3a350e1b734870ed98c30cdbd16dfee23efd1ba847a66f615b06e5517ba8b1309629a59bb4f80e2d7f5de732881aed09c80b02b29e2 0x0 0x169d108efed378d59a6c09da06395087e32c713eeaf74828dd51f8c639d89d3c7ab020bf052735dd4c05b816d818d151e4b086d7445897ad09f9e017b96486cb43 0x5095b308dfe23b95959c57bf83bd3965473ec9946f0c272b56fa30ce81e3c3a457b11ccf68af529be980e424dd70f20acf310c3c4eefe6b9b219f3c5be93eb4cec 0x144b73ef673e7a7b2255dc67bcbc9aa7475fbd341eca4d5b429889f23a464a579a62ed7006498f90571b3154d5fedb42592fe8bde47616ad812e3cb562700b1486;
Dbl 0x1675d647e174e00ebb1cf03bbfe5a0236ca29bec2529c7d02cef93fe20dd812c11b1435284dc2cc22e45fcdd366fc675e2935ffd420653c53b354e4cf6b0ed483e 0x6d27cf7852f9447ebe0a40f2eb39840441ff79a3f9d0ab28bf24204afeb1b0043d1ab561abdd4693fcbdb687de7836ae90d7f717a0bb74e567562ff4db15905160 0x12c6bc2d86bd8d949f0201a16fc0bd79c5b8ece2545448c2a5baa2900c728fd8c0aca3f7e0fde2a0373b7cdc3e837ad40a4235192167d2b119af2784412e045a87d 0x5f3604a088388bb0c2061ac2e71f459323fd748bf1438f98309b5591836db84eff60ef2ca389f79a5abde358eeb365145bb0902a6f6e859ca15f1a360ac0f00c82 0x0 (-0xf3b8be8bf7e00f64cc201681d6a2a4c4feb27e8b724ceea911bdf8c9378339b54fa3bc854fbe1e84fc7db8fadd300f3d23aacb19009b5fa6a047578be86215558b) 0xfc3b88f5e8363ac8cdc8f9ded31f1898fa7c721732e2828ad148a5b787198dfef4462b55ede73167d809af4912ea76d943f74cb56dedb99da9c9843aab621e20 0x42d3be3e663450f01fc88278d955cc1db2bcce95c2ac88593fd69556b9964a024c21e74c57bf7ff2a26cadd560525fc649e9ca2c3e330b254e49e24d291f1365c;
Dbl 0x8f52ac12541ef0a94514f2bc7cf3d67bfcf4c2c41ae6ff5f8463ea8ff69598a49654c96aa55955975568ebf3b85c5f10c16c4253fe2648d8f1a4362137b4d4c140 0x45704ba1197b9056c2c8e232a8a34ed4b76f58b77420894fe93315493cfd4d8ccf145c37a8752c7b80966eecb42bcaf93f688e0783fb62250d9f42f2acd333416d 0x14a5518f6428b73fd9a967780f83f371600bf0968c55206b2c11d46eaec50cf07fcb05a03f091ef2fc5b793737c5d0624498887997c9d2a25b01843e4e27e901031 0x27b783d7397db427fb415ec04296352f8a9020ec85b021d8d5f10b01c1b462776e06592a03681a187c27479b2a4c6bb5516f69101cc012c059b6ed022e425d0ff3 0x0 0x6260d2fd36956af8fcfb121b1fcda12f1f8c33dd4aae5600176e765e95113aa33b8eb88e784789346955f420180fdd6f3f321ccdc351862000bbcb23422fb0f37d 0x281ebb7794b08b84657fa374285bd0f2a611e2ad48f9d3766e88bd0d4a84674d492b0fcd03d8a95b4f647545fadaff0fd17faa68aed81bcb42b7a972505a72542d 0xb1e2b0fcc4b42e1754b83ec3291df71bcc29270bda16dc52a08fb23af353c8f393ed9fd6154a81c54b46036eeff16b10203a9bd6013d5440c018f98df8d4f88ee;
Sub 0x12f795dc6bf89284fa58fec5681e43228faa6a2cc7739ab5dd4d7c64d9cea048e1f075e500df9fa2b27455eccbd9e2e3cf4a2b936120301314e9aeadde5a474977e 0xd650d7a7f57228855f27760af567cdf1f5aa82be68c55479c5239de814f8bd7a5da0926bc00de39e939c65a361b7066cc2fcb208ecf6cde23625420a92cd7a8272 0x1928f41ee95317046a46651629f611c5e6c7382456de18dd3d1675f3508db45f3e804f8c9ed840462044f4f9f2e9802b94353dfca4c6252aab8048ac6a119eac7c0 0x16f1f73f9240967d163a16c27b33b80e2c1c4d5f90b5b34d6240f7761280490127173c9cbe86748dcecfa09495274c48c7c6bdbfe97049442d77a00e81a05b8befa 0x1 0x17eeabd9a62778b6cf52aa367427fb92074d2f4363b1b499ac73aec99dc92004f147310d9308545225798512b8c88cb5061354553c275f7e271a5c4747b104d8406 0x1 0xe2f6afd0f3b9078af4ca6de0dfb2a00ae0441ddf637d1235b99e695cd51b91e99678a7cad6b4f86c29f8e66544bc370cdf8543eb08c9da1c53c19b3b17b4a2f18e 0xb3e042c320d0df4591fbb051f11f2deee1d70585351c9725d7a890dd00c1539dcd6707a6eb5899d2f314e1e195ead7fa4c10a7beacc99085be43df50d24fbd9f41 0xd99a234e9245c423a2ad19d9cc5a539cbe14b515b2654bb743c6d8fd4f1c157847522711369730cac8d77ece0c562178baf41b07aa75107625205b7ba41d9f62e5;
Dbl 0x1723008c17b68b75dd44d3079d89d0300a86203eb675fd08aa43ee9d0917e60cb7c2810f3cd6f88c158e07deebc2087f93982e267da9ce8fcf6d3000f01246f02bd 0xe4211a3bddd57d800941dff2190cb6d66cf001202d4d3115e5ffd7c3cd60445dd2cc320cd298c8fcaba9e827f1274447a7df8e2e4e44f5febccbed5cdf7d784631 0x11f20ab4285c3a1bd5947b09b3fb8409979d28d08bf3f3acadc4675ddce309aee14367ac0fd9ab77ebaf58f960ac2db4a243a45dfa7c881db8ab2b77cb914f5321a 0x1f22fbd6c179cab0555e59618dc5b171b88ba819e3b782363df23c6244798791c8ad4605eed751aa1e7f27d7b708fc2251b1d23da9eb1d7e3795954adb350023c40 0x1 0x138fdb2cd76fd5ef33c1960ff051b0b317709aefab296184313d9509ce1665364a4bb6776007afbaa2f44d12ba6c029cad02d0527b4752d270dc2a9052a5915fec9 0x10ba7712948cad1a0ebdb706d7e6be0041c41a2eb718a5fb578e709377137739d7aa6d81125a00aafd6efd4121ceb895330c7effd106e5447233811dda2907fcb8c 0x168333ce1e13b62038ae15d1b969b4385f9e86eecb41d1091670f5ce7229aca129a4d023d30a2b2c5ff3c518e12fa4c8b80b017679fb294124860d8a1a6f900fe9a;
Dbl 0xe0070e4beb08cd13e4ebbdff795f18828378b69c1c2d2a440c6d19f19c5d3d2dad67e755427a0a323a7823bf76ac8b9d7e27c02f2d8635fe06563f047904d2686b 0x6ad569d7313e061ddc49eeb157153e49e7606eb60669a9e7b9f797696d791df64048bd1fcea9efe9388e18887cfcb0a23fe1ec46d86405c0540d3fc8e3731d1f13 0x1ddbbea0134fa385a8ad96d51f5fc95c74f1f4a13d6e2ccf302fee21de8af402f3c83aa8382a9ee36ef92c4df0d6be787b8e3791bbff9808d344c7acee903fe819f 0x794bb064ac9777622cf7f140c1f7788c858f926a26e3872e2c08405a5fe72667928374ed03eed913731bcf9f742a93a567fda1e775e0f03e68bead93fc0a5b271e 0x0 (-0x35abf8bbca7c058cccc9aa28534e25d618022143f6ff45fd1a93f40b2c0ad863748b4a7860202afdda2f7d20e019ec852b1fdf295ef5a17b70a08a50e68ec8819c) 0x62062c9b522152cb46894872af8c2765c033afe528d84c114fb34b6bcdbe4ac004c16d1d93bd43cfa9af0d56c8740f8e69b22d9da569b0c5b63a2f35499bea8ebc 0x3512c91802fa0afefd6ce35a3ae2df3d1d6e2d59da2e5d8f41142cac5d3e9cf33a3bbeca3fc17152d71275ba5392643b474844ecfbe651e83c6d892c842e5a2a2f;
Add 0x10d854c998d52c853b25371897cd416e5506c684bfb189ad1f183eae7f36c4a952317ddfd06440e599f1b5e0ee07b6bebd2692484989c23f056421d08c9e3f9a059 0x72c13397369b613c3fda917efa8daf25a1d55c19508c1df838f32ab7d7c5f03c311d9c1d3eef09ae2b0456ea34429cd39d6d300bb609f7475f709faa0a855e68f3 0xd43fb88fdd70d9f3004499a8b57bfc40daa1584aa0a1ae6440fd1f4b4523508d36ee58a86797de94dc9733ae5cd542f17470cb92f26d0f7acc7959437a806dcb56 0x1f814363ffaa2a4e19c6f5d325c878f24458b129cb5dd8bef81046cb195b32dba0f2b21028fbae63b0d89c19e48ba13cea274bc3b225a0e78f49ca01ed8edbeb61f 0x1 0x1a44fdbd07a3a01340eabafe5f0f1a895a4c40a34cd646a3297ff6eba0d0dd0b885a771c156ba08900f8ffac75559b0f961aea39316de9b7db813c14ab1b03761ac 0x1 0xdd41629d8a614eeb517e7bfaf9a1ab1cb655a4c0f90d37747b90c2de20f2092ebc7c457879068873bc02865acddd2290283dc71d042783ed1d61bfa303ff94a683 0x8de0b431b0bc2c83b6d20c566094e7bc43da8d071505837858181a54b539d4f1d77f59e03159eb5fbd72f2bf9fbcd7d073df76d405531b13cfdc2bef9693cfe67b 0x10959db2ae207d59a822d4dae8194ad8ee2d547f05d9cff1c2609239f6cc9666d62bc9adeb38a3b4422a5dc1c37a82397933ca004dfa5886e40a321740e0a249c2e;
Dbl 0x89567e753f94dd8ca05911adf592dcfc791a75e32c1aee66b89872ab81f52ff4a1f506c26822c593beaa211ea9a2cbbe9b732c9d95eb80108f810998843a653c8c 0x198e3e1b666383a91eb5b9b4c52e31bce8425c22dfbdc16cf2fc0c94756f6b0bc0424652e92b50340feae7fb28b5955cc3bdcc8e0a7ad61c0c8ce557dfd0ae19c30 0x170e1fb07291a6570dc7b1e4fece3fc78495ff055f08d09404d72867722500eb79c99d47b19f7780fffa7beda5560f013a05c5a778f65f5a9e9926da74e1d380da7 0xd9dd51e0d06326aa547ef632a7aa93571daf99eb54b007290932617080cf3f802cf936eeac3a066d2c55d737a8e947076190672b0e5c958696a24a2c0d7a7cccc2 0x1 0x24b4da634ef6914b3f4e3edddea8736f6d35514b88543ef3096d3f9562d8541277657636a346f808ff3b09fe011e42fed4235c762e9e99c9f6196e5ee7d92c4de8 0x24d6d84959a5d6b78b074e6138e576ddadb4caefe475b2ace48ac815c525be8f89e5b174cd4d10fd9eec506e02706ca90214a8eb9ef1a1bf57d81e1a39d0d48186 0x3a708664c3cd257aca9bd8573b9a687a43d722a339ba8c26c99456e6ea29b2cd74c4e21f8f798940950f76770c625fa24d64fd662c2c65fd7143134d0ba4de66e5;
Dbl 0x2a352e7163b479a9e967adbe7856f6c99895df5421b881e9550d4c52c11b67731eae700cc7be42f23b7b17515a8b179bd75fddc8ec348172f1d2ed84a85d097d5b 0x52bb350b0c4705ff8ee3de17e542b664b5730f387b160f0953bd2ad0af534b61578e6bbac49acebf14c1a41913ea598a6eca867d519f855e79c396a39ef813c35a 0x154fb3668c794e30a42a14212e0a0412c960544be482cd408c7308937b2d81b7ce763b0597c83b2fb07303ac3983752f60ffe02082af4639c984a0db3cfdd9b2e29 0x14628acab59f134925c77bd346da06569ceb2b2f580c607c5dc039e76a7a3655aac95f973ce1a3481e9ecdb99776efc41cd124263560ddc624f0abeda5e12cdd8d6 0x0 (-0x396d10a930db59524ac8cd8f063215a335f125dde78a929b345c4465703cf7e4758be0c7cfc3e16f98815c92c503b469b1b48a34b3f623f28cdb8882b66cbed2fbd) 0x37abf24bc0bb95a14691b933dcd55fcbcee4067582a7571515456c12e74acb6e11cc9489f344f6291184af4c032f9b747baff0e7ceff1eacdf2395abae20efd61 0x1ae336f5d11eeedea83e73bed1b8581ff213b33f00014270f80f27311fed418998a63b80eac810a54bd4b0197312688c2119d801b0c0c884ca3addb70c6b40a9be;
Dbl 0xad4dea322e47392e3675c8e5580b3fabb4f5fbcf00320d788de76184afc65256192a1bafe9c0daf633ec2a1bb1a463bf251c9e028b4f27d687ea89837a3ec4f4df 0x111cb00c7d6d6952e0fefff080a62c834c61ccaf3f0c8f51e183bebd18e4b4e0e65bd75cc7e3270358d3c0c92566ea382055491e9a4b4e0215f270b5f15865d77f9 0x190cb4cea9a4b1dfe0385fa6bc22c9ec702672aba25b089ec34f3e0e45049bd44d0974b6dd70beb392e478b3556a264b4614f5cecfb9cc0c8b227da10a7bf449b86 0x140f03443357070d17ef3df0fdadfee2fef5644448a4d19eb3b813eff2107fd52f1d0f5ee46685e8987859786bd7bb6086975f493aceaa53d1a9c8b448971b64b60 0x1 0xbebad8f2375588f8c855206e8a0d299d6bf23babae9f4e34f15828db48e6c194f3a4f84cf534af9d330ec195daf751ec2a829d001d983cd83589ca29b46e2a1f7b 0x3aa9331f457df0489610392d661b07bea07299f2a72886780d8cd0efe0dd591d7718ed52e874e0eb3f5f1382ae4893f2b002f014e0c1bc320d75d109a392d3246c 0x6ca20095ce04135d5b1a1d12aa411ea2b5c072e19b6d449744ac60d23db209160525556ad7e727b815fc16b1b73ff895f7146bbbe8cef9bee904accec8d9bca10f;
Dbl 0x1592c7704a96f28e54def770d2b1adf290445cc2bd52b4f1f84b2a7093257d89087d9b53f6999aea20f9254f3be3e8ec46d4db67c3037e7470e6f2f1821697de6d7 0x661c66ba77937140ba34425445ec0c2e2d41cd36f4b30a852e32598014dac9bbdc03ffb87ce0b1c01927605ea961f01b02f6dea9d89e2a599524218a7d1053c584 0xa84a47ff971761568acdd53b3d4247cc2fc1817fb8ff5d5b904409fa369c2dcf6fcad388c1d0755fde7ca84b23644d5aad5613696123b0aa003d77975f7a45543e 0xabae9a0d5f4323ed55bbbcb3c476bc0698dafdbcfc15ea98ea0992517970845289b976140151be757414ac33ad0cb367025db33fcc16b5c7ca02e9d4987609b275 0x0 0x652bb2f87fbcc1f0fb92eb9cd020899008b1f3383536ccb30300c43a905f0589e3f60e30937df76668662a270b67d5caa962c679c594f4e57a79ebbb26d3dc4d7c 0xe8b47041d8ce98059742518a5c93b5e6c9cd4c11fc437ad79a145d0e2ee049191fbc36a73afe5ecae8c4dcbaa62876478429041e58d611e842440feff280f1ace5 0x73be0fb7e4d2a523b3a520ff0d819229baa729950566aaffbed25e2a458301225afd8b4f771180b500853f7d9dabdae11550fa7f53349a0cc5e89d8bec40eef181;
Add 0x1a52bc50b9cedb83cc942169c3ab3970614273edc92f10059ebb54676643d7ceba91cacbb2950e3b18dd216fde6803b85b61139493cd01f1c89ff46c6f3fe0358e 0x191618a10c581404286c1d54060e14e26cf75da9dc9aed4ebb6bd22d653c519e25192e24564aa5b8e9fd01fa0bc09bf24c2c121cf469cf81789d6ba4bae337e876f 0x5a9b38a9a0132763ef04cd01dab6c338328a429754a0ec56381942602621892dda972d901d95aaafb09355015a2c14a0dfe7e03e2af04016fad72c64e14d0a6edd 0xd4badca9b21230fe33726d13e50abe075dcbf2992b043599777536a9c115afd98a711d7318365631795740bded5830f64035bcda920132420b4d673ecedcd53e14 0x1 0x19f96d8b3c08f6c56ec960388dfc87679eaa568b5bbadcad00c3a30d0b46f7c7e2162b45a04f0ca66f029429d81bef07224c395f61718c016f92aa30c4b4d6e081d 0x1 0x155dd104bf86e56fa85e52ef02ed642f595187169ffa573aafacb9b260741156b22a3251ac1b6ae9ff9a8fb8cb185601fd572e70d17ef6442246050542e35d6cd8 0x15a747ec9fddbbbf046467969973ab53f335ae31f38ac8bc130059455a248eb5491bd3272f8a3465c80965188e7de183c379b7a1de2ef55b0d81bf47f5f03ef95 0xaefdd601ca4b26c0b784e6653119bf32ecf32d7e43d7135e5b3bc33083c2e121b4e75e7d75c685acbfc3eb493e7175fbba123d39471bfe39a9a4e4240e5ad3003;
Dbl 0x120809d520b1bb5a32f16c61267a9bb56d75ba2022836ea8ebbf2da907efcc8a880bc50242a4e6a823ebd36510324e0e404c8075a6dbca19d3dd80fd27826b24d46 0x474ef550a1d942c0f9bee17cd5f35e33c6e75bece598abc2bb53e98f64e8a912b2ca08bfdadc295e9be8d367bc68e7a520750d4f1dbedfc8adb354e52a31b66f3c 0x1a392104bf25328a537833c01aba6e4f5356e9123ddeeed9787b1723122d9b8f78f7a465639f1af2404658ce7717c1a1ea4602dae7ff9e5fe428f894a89128af369 0x14a1294c023a7fd818d02f3c38aedeff3088e7eb0e4162928fb693946eedc70cf9ec8d98589ce323003e74c38ffa0d77fa24c148028de184edc2365668401c81833 0x0 (-0x349dfee824c93c674b51bdcb766054694eca4f195065a0a758523815980600c98331ce954323a137d9f1e5f2fdf4776cc5d5b131171fac4341f25ad09feb6facc7c) 0xa290d14b25db9827f4141eabb643894ef23a124ecf34beb131e9cfe7ffb6a6d25a5434e5d28fdd9573bfc465d6687a7d76c14ef96cba9885395eccc7c644084ef6 0xb9fd5dbcdad76992b69a659164c039396c7fdc0bf4ea7c5c49949cd029e4f1532d8e558305e01e84c9db6d51ff3a1536721435b18b6501530aec76d4284e216d54;
Dbl 0x112c22656af596eb8673b9ce2155e89db655ddd0fbcab1aa1ac86e4dd727dbae3bbfda804334c3ab304aec7fe52ba70872886ee389ba4f25ab51dd0cc6cfb19db90 0x1b4a266e332a8785a66578e75816237906272dcec69ac453cd641b01b58e3696476bfeee5c29e0d83a0a21d93de737533dbedc784f5f844cedffa1bc68115dcd580 0xb878d1fde50469718d3565f0998fc4991eabbea910b089cb6a51bc143dfb143fbcf5b6fcee2ccc1248e1b38e63bec9d032e96b7acd9781c0a5088a122eb97e2192 0x92ac8e6d6f30ca6693675307549126a364747f007bec6685e51239740c053fae3c0a19da183e1bdafb46b5d3ddf57271448745ca27c69af9cdb9391ea91bd999bb 0x1 0x1a4853253b0cff47b44cf6499a0ff069faa5a07545e961a0bd717d149b5b5d73e3fea6d5afd81072ca76d3dde2702bfa45a570fcb1451d2e4bac4c65fdbeba5c60d 0x937216a7d83d86fbb0c44cab8a22c70e7d41a1550bbb979053361ef8115129406932743057fd478566f51f5a42d71113925a88b9571398e241ecbb182c7ada02f8 0x4eb5f6962bc1e2d4f1ae3f9c43f26d17bbdb29a28f425c6b7f22f84c75030da0be4699a9a7af7342a38103b2dbd873719c931ef2ef2314be2080a781e69edca2cb;
Dbl 0x822820a5f55379bec614dfeafd57e5108665854b8c3c4c1c37edcd3908ca3e5eb1df4799b88c697d4ffcbc19dc77f853d53bc4470fe5100be52fc1f98140a9d40d 0x10a999e3ccd469ba01f3c04fbd7f9de4044c6c46574e6a789db4fb3202f8b79af3f19ba0477a03a00b2eb7bc77c45c1cec5a9c79b6cb730e1357d89eb43c90c80ac 0x18e4bf7ccc702d8f1bd602914d81da5fe3fc51ebfb8af35ff6f08f9ca045a2af36051590263c76798adde4e0018c5ef8f91e5aaf8da1ddff95128ad059d6847bf71 0xaa08c8a66561dcba471b8979a96859501dac1886f4c59db2faf1fcfb2957efb537a634e14afdd382edb6a1cc622db3651643ffe9894113edaa7c91db3d4cd054d4 0x0 (-0x3ff4c1b2ff94ed0641df2118ae87838a91da6b19ebfd8a597c78d6cf6d2a4c8c9f89ca6a71e00566dbed4f16da18f786dcedd390d697fb9957c6a15a0d91f0278d7) 0x211663b96297ad5369f74ed0422f0ff420b8ebe8c8d3d522b2b71bf744e48ccb99abb5db681ffcd00099ccfc042be2302378ae61d4fe3d74b856291e7bcbf6a303 0x2b398e799695c184e963b306fcefc967afa8b2c93f573957596bf686c8fb83af6cdce8255a6a147a9a3fb2f8478c57dc72f7b90779988c862ace437481b4fe023f;
Dbl 0x1f95658ee28d0e4f26ebe85096be624a0587f4cd028a96844f353b1cd007a53b0d5495b710525166b35af56867b9ece8b02fb259d1ef9d933313e365cdcd78ae939 0x1c6e8a16f5bf0de4f995ce8d8f12291804941c2547764b5791fc4fa0cab8a7bd5978c00a8cbb7a2c403c19eebf5038600fba840e7fb66529c667e281ea6358ac77 0xf9b1d44ca09382957d6ffe702995d3b1daa83ba980197ff711093505db7bc278bf3bec1f4d0baece8ab28a46842789e22736b292a11eec09475fecbc9e049da017 0xee2b1425d7878dbb25a6366e48e7b5284032a8402d705c324953637f64d2d1f1e5a0f9f9eae4bfd472af61d8bcf5896eb5ef438ced00cbb76f15a7695965b3d435 0x0 0x171c4ce2d89124de5bb22b26ad006e3986b3bbf6e1ba8ef5046de8d3423bd200631443bf97c289017f788a8d753cddf64a78981335dcdd2880cab931309fc22685b 0x1f2c2e3fdbdf8169eea1030e50686466c100bf08f2b1a66b414a010628fce45bb3d47a8703a8ec8262d9030da7528ad3a05645b23dabcc93d5e5f0de75bf184df1e 0xeb11a7f9e5e9cf457a8037469a3c7fe6438c72659c5f0de38412ed7b85b4c28072ef63e6d3445bff7ce5ac1ad0694fa80d435bcc9f1a93f295d8daac0e3424e2bb;
Sub 0xaaf2a306881d43fbf333a5a9809fe85d67e8e4b1929a2eccce850d41e0d7360e37c1e235a80730398f1ffb1aa70a4b7f9c405ffbe726dceca028087a8a3fb524f8 0x4bfac68bd0cc7323dd853ff884eabd5278639fe29f7b9d36fa9ecf36c19b3ee36f9cd12249b0e1a4fe69aa65cb915a50ca58c36c59780d5fe9c6263d36809edd42 0x376498a18b9d53564536264fca17663ae3a4c9442b88ecd30823cb47ddfce957b9d5bbd30ab9ff0776dc5162452b45ca6419dca235811ed2a38cfd0e9ac5cadc02 0x1d073c38b24f29ac11c108e950a276bc58c307c42a7faae20975d806a091d68d9e9dbeee8430a988741d26f88f3bede0f4561c0a2263e57c9dca1bc44b3e2b9cf34 0x1 0x155e8fc103ebb08fb2bf78fc228ee9363c1f7b7a40e710ba2700426f16a4d5a7f9ed774ac14cb92d3173dfc2d97ad38b731873b5abe30fae72a6e6403b8a072ef10 0x1 0x722863ae91614e98c08f8b4dcab8901d417d0d59d8a37a9691748382d34aa33d84d14d504dbe6b0e509fc4bcc9a2c2648b4bb2318bf323185699d986f115292ee8 0x3913933ea678c38f8ad4c460d51b7fd4400ca83f58218b6d7c3dd0e9c994f712c014ecbf7f2416dd354a561b680fe221294bc727e0d3d0b00af1a459934ad696df 0x9b128a87679e671d2b5af3e07bc8569e6ef3ad45e71613c75c34eb225dbc201a07ce5af88fac44436bbac5a9ae96dfcad433b57bd8ecb446b78e5a6fadb98071b9;
Dbl 0x3133e5af7fa9c81fcc5622e9ff824a8970224350a5684e51a843f151c28c39a77934cadfcd8e49e3f0a00de08da3c6983f77dec3dc746bb529928a0142507b827 0x13c7b15a0fb22b2888e27720d912c3009a4ca7f99f3f67bdad6feedf4e2ea89e94b104bee250c7022413057f283e4707f8d13bdaad4a42e590f88fecc70f0e455af 0x87ff7b5a34aa8d073a6718bd2499dab600f0c75645586b4dad852d60959cd86da9eb34afe7e32b13bc4387aa7f18119d2b7dbe58631fbbf587bc998309688dd71d 0x10f7fb0ead5a9c09b4f5dcdeaf3be8d48d3992048ab85215c239fe141deb0b4fa248c853424a47182bd39527347ace9d13d4505c184d3df06da3d2770c58fba8792 0x1 (-0x2129013e327efe901dd7fc9bb23495b39df4005f7d10f0cd423aa29089d6c438c1e61bba11b8a8d4ece71851190351f9374d9a0348194dfa41e107216ce614d993) 0x4ba7439406fa77bb95b63f22c38808a5c12d7397954a72ad164af4d8a675f62192997cf040d967489fc2a5391e97cf41bdd07a0be52297f765a854f1587fa42 0x1a173d72454f3c52e3f04f12c5481824baf1e8a079fee0f945517b0e2d185db93def769612acd446517d66b9b9b77d68eed8e4eb5581d3563bc3ba923687f1be1;
Dbl 0xed4e2d40eabe6f9caded2afb89eb831e5abbab82d97211f67311eb3331550a5e7a022fefa6d3d7ebc36bcf383b81fedba1c0d72ea4ed5adc903bbab1281cdd65fd 0xf967c1d9637e845e69f8f2076a4996cfa028992b7bbc9ec5375fb78f5f3f304322dd2a7635e8401f5decc020d89c40ca8ea5e2009c6d783475a620c5c4ebb7afed 0x33dce953a65d09e0a8f8867767be9610f09892b056ac07ad02e7d21575779b143a83d91c804bcc583841e13a1b7d019051b489c54792e378b7bba9a3dffee86a54 0x431353c797a42e2a242e800626e2993a04a1e66e7839dd159f9f366583ab59a628332177ef243002e34397d1ab482fb4fe6ddbaa3836b62499e2de06ac052ca5c2 0x0 (-0x1cccf17c85443dbcc0f6e3e0806eabe516005b801e046ec52f32a5948eefa445c4842aa3a0ead1c51628e8938014ce23cbd4f94d9a5fbeb1d0a5afce3c9bef90872) 0x6dfcebd4e719c4d8a39c59a648c482f1ce2c992294c1451003e3aeefbcb5ee576fd6e85ab023740664bd644d13b088c5987bfbaf102762d506b70177ce360cbf42 0x1f16b0275b21e53df37537e468c0606f196646476e0c455e3391a771ac52f14126ad9f1a21c5162c984d2a3ccd8334815a4274a7e2bb446d09449a4ee15c76e6b7;
Dbl 0x1da94388d9f8fbe35f528ae3778ca10b9389dcc41d0407f4315de171243ef787bb52d1017e951e27cb6e0e4c313f746c5cb1b2fca33595b79c1c6cd3bd1da2f3e41 0x8a95bb167214070fc1d0022429ce1ff5d110b63df726320340c9aa8f2425c74a21865d3b9e21fa15cb350cc26a93e31faace121c6152c3c50994ac759a3b9ce112 0x1f32ffd3bb5edc2468bd26c19cda507aeceec7a7dc9e0c2ced8bdc3d7f0b92f4111c3b155daaa831928a33aa1aa9cf0ec4b1f848b98c8a396fd1389cc1ddae9b981 0x6ed206c2f16a7d4ea828efe3407b76d9cf17e2ed84966cc1f6960d003b1968f90156cd3a97c6460992b7b35e6e085daae3d7cfe43b1ab46f6c1174502ab01acedb 0x0 (-0x10c537288e276ef7e4f85ec7bfc50bacbd032b0ba5043a94b3b8d838a3eab647cf268b1f53c27ebda5eff60627444cbe27c64b43bc0df81bd4931f8c9b7cd2b0a70) 0x1b7e49b9ef18f875de4a08eeee54e565405fb4a2d8ba742c92f688619dc220650171a80e9c33789adec92b3159dbcf40f2c3b9e15179bd5f364df09e643740ab46b 0x66b885360df6e3cf37adf6bf245df4297e6bd445abd1ba5b847df185ceaf9939e465cedd0fb8dd70724c9686a31b85471978a12381055ed76b28853ba32cb5943a;
Dbl 0x514895b12fc8fb9b90bc50cf243521c4962a33ea785f96cb535655cf4c4179f89a09d66a393ce9efa4834d749b63da6938efbbfb4f3909c14e772b4c4a27d87542 0x1c7e4c831688024b47a7dc9dfcb7a9fbeb42d41301135fcaf65f2d36d909835b1b7f25efc3058a52a80b654c08d581ccb0498d2af62b3c032358e3b2a523809cd10 0xd4794aad5f7a21edea7bfb2e71790d6cdb55cac9adbf3d1d2fe999643a986f8799204e3597cf634155884a035dff9f95646f2425ec484d906cd140d9f5e55436b 0xc2b0f2e50993e25b475238445e5380371ce3750de5f03553dad6d721938d91986993fe3f6dc954eb4a7eb801dd3bc654a6353f6cfe9f0392d406714b4803931401 0x1 0x2df710984756acc8eb54388373b35954d96c99d95e56dbb20183498463774b9964328aa1e4e3db7de41823b437d1601f4e97b559953c29d9421e51c79b43ae5f45 0xce781a755b7e6448569816b8eb44a0dbfd59df6941941aa480e85361b3b56d79e679305a5c5a1670362c584b846fba7a61b2a5675653e07326271709e7e2e2a30 0x1ee8983b434088aa6d24dbde87543f497bf315ca671b5a2a3b7c2b9c768c8a844e5d671db36f4fa5d1caf60f3d77c17866c5ac3b78387807296d13071b0d575faa;
Dbl 0x16b0facf9f01f796cae15458c1286a164f769f0be5fe767b28e28c60b368e5c302aeb359a0dfec603afa1408ae1be2f350f1188a7d4dca27add35b39ef79d1c350b 0x1f69b66422db5c7c5427bf13778709c381b253cb071091e09f306880375727d7da7df6b58b52e852b54f3e2a362ec90af16407c01f7f7da024e8af0d595e794dfae 0x605f41308f0759ae4bed64bd5f0705ff343fbd9425f827ab735d7ad3041fcef05a0af4036dc9307fb13ba147a7b4c0ba1267760b2453b889caf42922c7e9ac4d59 0x1d14961ef3aca5cef3801d8a8530a03869908047fa02cdea572ec4b6a1b25b8341012f3a37b2a1fff2bc2721d2a6b8c1bee5856ad6abbe62fe7034a54bc5074ed61 0x1 (-0x4aef942263eaa89aa14d8fd2eecdbd0d64b35d614fae96f3f5f04d5a6e9d1cb7892aa8d4af260f956b55679b8fa0d2c7e59d579ddf85ef8b62df1b1d38e387e3635) 0x10172bac144921a5cdd06004d830db98e907e009ff9b95552627a753fbd03f40ffae83bdec7ec168bf2c58ba54ab36432d6de318288f8225ce38db19ed53442eb55 0x149efc5c743fe309b92b7e3fb07c377f4608d685c52680c23e330aeab746e64d2d101a19e64251b0394b1c5a3a5a9e82e5fa8ed65cd6859f51f9c6a26b22a3a4899;
Add 0xe0bd6e6109e171c3e5c872e39a955cfa0c76eaa99edc76ef630c4871a35800ec7720a960be9856ace1f2a736ccd5f1933c6107af8266475530de562bffdc8fcd72 0x1de5df3777416c48c5ddd32a82307412991781dd504c7f35ceaf6f82d1327970c9db0f781e48addc7a04114dec4458e340e726d38b7d99e07182b26dc59920b37f8 0x1130923c4ead9ed7aad17de9c3ad662f6bf26390f3217098cde4fdd5365cff1b2b3113c3de0b065af249bf83e930174823b46105d56a18e5e34ab7646fe34f9cb8d 0x183d72cab99f0338e49ebe8f55695b0e89ad1edb6c412aad080f8fd6624ae6710a2e73d6d0a3a763b4b2cdc49ea7027b07ce0ec9401e3bfb365fc9f93c5589a7b6 0x0 0x13015d83b76b1c2db74ddb26c124d0683d888d82f3803de54d10e5f541507303fed3e1ffa3d3e9dd22bf5c4e23b499106380d334e36726fbfb29172576424af2248 0x0 0x857a1038a9579b1a5b69c7f2f1e4a32012258aa7cef2671cae23934bece881939d51e056d63a8ab81575c09ca5170e7829cd2d0a52330b829a4ca83556af31faf9 0x62a606aafe15539f842f21bea5256ae2940f229f210472f9f8e3b8972a66b02f74a3ce23f1fee7026f63dafc548bb04dc702b68172fb4a00817b772122224a0e48 0xaa3da215cd0a4cd414efac3256b468bd3df547e8cb3cdd98b88ae8f64af5f0c0cff81f8f177e00fc3c0503e97430baa448dbe66f43f3e09ccaa756819b562abda;
Dbl 0x906a39774002b7ca23ba9f211f2dae003ac77f6c974348476e50c6c93b247c36121ef14aa6e070c9541b371a3fc5540b87a7939968f1878823cbe00a1f4ef9e041 0x167cce71860ea01c978e6ba1b7c97c11922ebe31d290b27f118b2036df60b84075b6a783be7367152bb82bc25631d652ad4c09521fd7abf6212419c8dd8e1d66b8f 0x1a699ff2f717a90c3b8ab371a2ebf968b16810be0813217d4f8df7f2071f6dc145521a919864b503d084c434f0d52c836e601209b7510c325c86446542b8289430b 0x76910c5f132cc2c2e4f6788ca66f80106e8c3ab7dbbccb6bd244f4bf1d1c130542467f45fd546c74e4be58b96128290939b1d816ba5edea505e98a4e80b034cc69 0x0 (-0x4a1ad35de982989ddc56c439792d8d99a6b7fc60dd64e67dfd36d0bb11642561bf8e88b770bfcbd6ba9e9b7e080654d93a3a2f3ebdd72a3436aff6e9b9bbcb49cdd) 0x28bbd65ce5d53188b1fbe3a9e8eb31b6f8b0ac889910a9c5e33a647de605fd65d9b3e5b126073f945507583ca37fe63607679ccc3fd264198d51c3aa4067090afe 0x217164d1107d4773298559fe108c67879d004791486f744cdecf54ac521b5332f3fa3a3f902ac5ddb65e7394e88ef9b079ec3842624828d695a8d1bdf4f71e47ef;
Dbl 0x1f2de341482e0e495ded8ee78d7a907de6b40b0aad504d99112641ec0866af60395c1eb730bf4cbc48e93c116b08183b795f4e29ea1011753f605fb35b74a42950e 0x182ec7cc3bbabb6d15c8fec0a25f6d752511df4ffcaa319d9ab2a2010a65d9e38a35d53b0cee7feac75f6497f3bfeb85af6df03ce40cb77fe2dd78d071d3e852e42 0x46d31c20cb4244c685afb1394e9330c18ae9470e86fdef3107f7a3f1ac703ddb0565592bcf317f3f2c7642a35f0f6825144a5c84807f177b7c376a5622d5da8bb0 0x1e4e06a54a53e4af81c56ce1156a0e9c6d1cdee1d5e680e176d87e35d4fade5ceb80d248b184e72a6458c72a6271eaccfdde19153bcaf4763e46a0f86bba3513d4c 0x1 0x40fde3b37ae431902ae621729a5128e41095e1693dd49c8c9be31e1b4ad287bea8950c91ba5367d5cb269333e1b805eb355973919a88c6a6f69855fff31e146a6c 0x1e612a1bf15af2719ceee23dbde0fd0647f3815f360fe08cffddcbec26bd79539cb1cb05463269e6e04670ed74ff752d28d727194796e3d970cb2dead4db830b89c 0x1d870b60ca6eff2ac7de156c41478ee5e2bfa29ba54b9fb064c97b7f0338b1aef349e2b4818a6e6963698451281f78db8c992a328a7c456f945a58ef1ff5bad3893;
Dbl 0x5d2ffe4ed2091e9e82785160bce2378007d3d07b01784b6f84b559d1090e7ab257951bca4afbe9577ff34e7cf3837c1da26917516d586227b5fbc85596cc3e27d6 0x4f23cf63af100c103f450e22022b727dbae31afb78c79c101b090ea8f77f4f622d50f10b7162e6ee24a2cfa2b8cb4b4b937ec91dbe1e9bbb8cf9c7b89cabeb6ec1 0x1cd4b21f4d1a82522a9aa0ac39f55f5de45cc7713487641f910c272885213e5df156bbbf75f8ff8261ef187ab58e4e7aa32645386c593f45d19a1023b593895af27 0x133c8ad600c9baac11d4adde823cb64d4963ada0451db7dc990211167aede4ed6760c62a55d8517be515379dc83336d0f63603ab082acdc42a0ddc54e809299bf81 0x0 (-0x3536d0bb9733fde456a1dfbbd7af0590c62c51970e27abb24bb6fb322e36183657b9d5073a9474621daaba96fd9fe6134c1143478511f1d4b5871927a331661cf37) 0x10f5f3e25116205395d1beadd335afecabba4e51e3bf6b17c2efc4201e7f376ba312851c9d66790f35d9dd8b5ecbbda6d9075ad8f6c8edaf9b8443dd7ac71ae461 0x3804cd49cc73493ce2d995c1c891c9b3211a56fdfc18827104cc37bef0caf1fd13b0a49412f1124a44a469fc045cc87124ef529e681df7afe2e41d4b3ee87f7e01;
Dbl 0x8da0c3a576a7f2c30ccec6487d7867dbb39a317ca958786e8894b3218f5081f03316514c02f267a498e65bfd6ee332365803f62200e68e2c8b7a365e7b8edeb74f 0xe36d07fd1776d92903c54b230036a97e75a8085fc9a92692e4ef8780128a36c0acb7ef32f62ba0a8fc38e29b021fb4f2f91ff3308bfcbb81b29862bce688a00e7c 0x12e0eb9c4273956ef162b9d4c0bf9a9655513e508a427ac82d7d0051bda53e635d0ede26300123a2313d613b02a1f94e72e24b3d9855c9c2801d61a9b13fc53a995 0x16bb6c766979932e73b7fc2ff01f4c8ff453b129baf1e757d36198728e4f518a1809901d87b3746452869ed07b6ab96589a5ed5ed3221e039da6164fbb6234b6044 0x1 0xda8162b09d9e1480c7d6039ef4205a5e346c82a8ce17e0b27f90a9f7653efb688e4a1a555719af81fd8a619431b75d27793f105eefa42d594e4c4b07bb1c516c6e 0x272d3e3cb48768882b9f8fe7d4f81772fd56661578442b8f67d429455b234a69c60082c756c1142563c95b5b16d4fe0d715758ceaf72453bc7c2402f17cc30e19d 0x649c0a03b8725437ec439c4d59fc79c27a528ffc7af83dffe5a6a91247086861f09b4d18b6a9cc259a829d53204efd795f25c5a1dd843cf1bb9095528e3bde07c0;
Sub 0xdcc66615df27b5efa56a04a2a266c33cd98c599eeb72fa74c9a59e1e284769c7f6f75eb5376a4bac55d571943eb620a4f97dec7624e5e16a5f2d47afe6cd1b8527 0xbdf7572bbe9d44fd524f5185d2e19a908d6974c7936a56ae45596e1a73fe24fc54af8f774d3258663c35c1c5ccc5a42c0385801489e612924049a7703f3fc6a788 0xaee615af28cb19c70dbf70ae101c16d8912934166d8663bb431d0f6ee94af76d244dd680c515ce3df8e7e6e64f5078f2edd4efe876c837b87b4fd8ebde48491748 0x2575b0d158d9942bb175f99d2d550eede83e9398363ecfe49f9619659e8c11c458085fbba8f94842c00320d5355a10c6f59a731c0216a8ef724ebb4ca748d966f4 0x0 0x1ce779f66072d43f36270c579a1313ca330ba3de90a3e6ddc2f75ed0b21ee982f216a3d47e3bb94fd33ac4d9da7cb54a1aecaa7cca77513f169ee43eb4c5ba5116 0x0 0xc76a9af611c48f307fcfd915e20d2c6e835c27a2ecf907dfa1dcba33d568ec663070c5852b03fa0e9ba178cd7c0c6504dbfa0ff856c68514ed82bc5ed8550478c 0x5f32cc9bd50b70e9ab838f1c6225069f092d9f906b4880ab428c9261b88710166de8090e8ba0a283bd654a07d691c9b3a014ccd4365ffa69087813010db9d0e779 0x102715f56103f9625a48dd73f2defe8720e4ebe0a54af319a3787636a8ebc3f8feae7c50183d0dca5751e2aa3e7952533f62c78caae4f3d8004b3ddf05f9454db1;
Dbl 0xc43830e2093c9144d1fbe43dd6ddcc096dc5a7be9b3f6c3062f5edfb58202fa233473fcfe223c64918e0d452c8bfe26562d841552c04eb48c4d97ee2cab6ae9d01 0x1b962e05c97585eda5dedb7dee5e7ae0eb9bdf151d292732e8f18a160a074bc165d81290988cc3422b3db4a8dee75cf469a89309bfeb90b3cbf73ab43671c5b9a22 0x1c950ee242afe24401aee9d7b843489fe71d79a7f957ec259381a7da779e62c5701af7f0ff700b0680786c766261898be95467478da9363b9c53c2972bf1dfe7aea 0x1049476cf2744e622f46199a6ecf9ec81d3ab8375c0d7e37fb640ccb9d38968e5f72e666dc4662443885a7737de4fd4e568fc4f788b2d075580d5fc2cd8236b0d65 0x1 (-0x4d642c3376475530c57b6e6dff88719f736a454b4f9ecb24ba13a5214331cc81b2df4aa14241edeacd5d38113c46c86aa462361cf47a4330c4403409d6b0f855d3) 0x4b330b97c52f29fdfab2983f81ee7ddc9485ad1e9dd968dd1fe072e74d775a88cb650e8f326f6c5d5c8ed6f2468d6e078190dfa0b4977f0298acdbdbfa6242af31 0x63dd6e99410ff82cfb108387ee36993be8276d0719058ba7d9124839da0009cf92edbd5c0f0e59e72c77e2047c245138eca8574e681f06580c416dba11b2ff93cd;
Dbl 0x1d7ec8ae6d445a518f0e22057672b68ed9bb72cf8594f24d691c72f90d7666e74ee53beccb14fc63159ddf635a669fb5ee7c1d63819f3fe839355e4725bbdc335 0xf184f787452caa092c101cdf7bebd29e08434d92ba1dbc108c0a694f3a2136e2c501d0ef2aa7e642a9ce76690e69925721fcdabe08b5e8e681b15de443d2ff2d67 0x1231b864927da623ebd95dc010e0ece6de4ab89c72fb46e25e77dca0429a082267cb16055e0d86fffe62cf0417352b20abe44485bf069c02a5f1bed2fbc4d1e6850 0xc7dde8d5522bb4d131dd9aff69fbdb70b17aa3bf1874b71e030e381166538533987f581a5e244de00a0cd424e00c3cef788c55ddf60322563dc24d5f23495c6cbb 0x0 (-0x4723dac527160071981d5a95bdfdae1d290d939e1916155f5d8c1159e7776f0d5e5c3258c841c717701eb78aff8707a67278ed3f1eb1f0ee17d019c2ed0d1389b5b) 0x1b2fc20d6e306a973afc1966acc6cea69da786d7e39b1a0c48a700e29d60e04682d0c8eeb2e9f941ac968553875d5eb16e43c31eea5ab103fe9b26c8c9a98b2 0xb838fa327ab93e386fe8941ab76c9f8d1353e50762cfca26cfea3d20d62c73f3a14434584bb593e449a835022abedd4ab83c277e8ff7a38bef6314231518ef83;
Dbl 0x1fe45c9c8e914369464a4fe34b1fb1e6a75d01f1bb3e2fe6b7445194d82530bf88f3276c7619dc53251d18cd618b1f6b1f091efe0da0a18561411b39bcda0ce05e4 0x1fa201ec069569c488926dc131c6e3ba7740cb0b1efb16a3ee06ae7cc6b4662b18594d8f924d50bd064937f50d1a656942fb019e256d2ba394110ebf99b819c6a13 0x14ba58241c58569413358cd34e0784d7569fd12ec94717e9f2127a27af3e1308004b3d3726d3c7f68a5e0a8543232de992fb16aeb49b9dfaa1db307c9ede0957307 0xf764d8c6dbd60dc0a2e940cc5f7d96f694369ce0ca6c51d1ab9f8182cedad4313f6cf7f605d2da72453af7183cc33bc2f24cc0dbb1e32ead40a071eaa85162c353 0x1 0xee76c2baad7a94b67085192ff6ac3a9ba3abf0c2379a26f4579a1a9c7a765a99750dd10a9ca2bfc960e9292a69e4f55933bda80c0eab109fa82edc3066f6c12fd0 0x1fc8d11817303a505b73fe0530447b8af635deb85167cd6a7aebdcbb7fd499b9a64c48cb52d0be006044acb481d561b40a93fd03e2137e907db84b60dd0ac8811d1 0xf68f2c8576e4bffd723458f19b1de92ab5766ceaac5d5875a74765de92e0e23f6155a609d04352320681c512feed8522ffc934375349e087e49b38d026b723466b;
Dbl 0xb057885824cae6dd1353b13b0c138d95db2e176a7ff792b3ba9b5ef1375845d49a838b0a0c78e837dc3719fae9237511f296db1af993ba53c0e15720feebb3e73f 0x1fbab0d33191c5c4160613103ae1e6f33ab36d7620840c0585b90f535dddd8cf6894733aefc32e2e4a92f6088aacd7cf13aa308ac7b4059b09cb8b9e5ee331a35b0 0xd15b10c1aa4c718b96ef7847964dcc4f43ed8fd06cab64762dd1e087e0bf7328efeaf14b940ccff1cc25d1be2387d8b53a2a14446161cfa02d0a3925712485bcb9 0x1fe75118d503a400728c5ab0f6e4fcc73c8d5d94fe770a9e684d9f2968d68d5bafc4da54a28a228ebbb641ec826d8d9a2f50d1135db926088a4583213ad4e823462 0x1 (-0x4f8814cf5e469dee8ef720e08dc755d112e482a0e70f0b76ce1afdba1377b3c85e87ba7eaa73590f49938ec0b76cdfb1b5be2b5bda5d29773c7fc87e004299c073a) 0x3cbc3cb3938ee264e574c26c978cda7b360d8cb65fff558ad6ce7a06c8d9065d75881aa8d3edd030c0518f08296ab451f97cf19ebcc29d411563ed6f2659564855 0xafcf82dc088e3b1876545f4be008caf74d4f9fec35a346c44e03bc4a56781bb8f251eb2ae5e0c5f2f9c2308b8f819fdafdb2cd13c95edf5da1e4e311849f45dda2;
Dbl 0x592b6d7a3fdb622c277dd13f209a306654f2e4c26c4473ae190e194e68c980d070ff60591389ed106ef0fbd5570560012d3cda3b1aca43e6866007445d4a5e243d 0x430d4770ceddab23883f1d1ea59b63b530c1f27296f2d682f5b6aaeccfff00c3c604832000576c34f05d7469b9f9f481bd64c884e99320648a24bf576f68997189 0x3afddeea4702ea63949f070a1f9027dde34bd7388f69b67814d63cb2493a58d020594555ce04aeabbb155a5da540040bfcecd102c877033410521994fbbff27b07 0x1b89dc5c24a3eb11dd82213e508830b7e7a74e4ef714de9d565da4a490dde8c32c342b08efbdb76afb8d1ec1ef0d3886f7d3e402791ad394c1293fa8e7eca80c427 0x0 (-0x59d324835a81eb7a6deb214b073f5aa65c3aaa914760f1d6268dc4dba768cad1c5473ca58b51ee58d970ce168b0ab36bd54c7ad22fe14c4303adf6ebdf357a4ed2d) 0xf879cbe7b24a95bb675d0e5e84e57be659c1a34c23c32b8758ef82984f594ca6183eb3e1f47731a46c09c2e69959a096d1e783e3f0d17dc12b99bd767e8e0a660 0x4cbccc572cdf53f54adb949ddc012a53633fb24ebe83c8a94e0d264b1ed04450c4de92ab41517e3234b9ef3c97b638fce112d19afaa8c25878228abf963be1fe75;
Dbl 0x15707c33e0d829dfeeaa9f4157522f1ba448ab4f617eaea953599300c0ec96c9222edabfdbbd6d3c7089d6c6fa091bf5829a891bceb5a377246fc8354e371317da5 0xacff07fe438c9dfb620a590856cbeaf3883b7721b6d0aff9c7f7191b423dafadf508be1a2b17057fe528c63ab6379881b4b9b335234b3912d2bee6aa08332cbdf5 0x84921cffde303b71043a8e8be6b1c97f2d73cac0a80e7c69d3e87b66c5a84270e081c88196d1234866fcd32523da895609aa02f0397b5f5d0b5914d079e3e47d08 0x1960e3f728b510d282634c4164ecf78c1a8867b50e02226892dbf91d18dc15115d0fbc505d54066b50b34ae2f03c25c0008ab154fc647e751b765d8ad67356cb393 0x1 0x34b4017a986f11c6e2e14a8e6cbee72316acf2ebe5fc5f0626e03d37918a2e1dd79348738c341341b15584683d82aaf944312e0263c624ed6105fb994126ef44ea 0xe5d2e6b645402c12a2b8d48314bc9bc9af3c4f3e7ecb5596e2f09c058da5e435f3e35c841c3e2f82fac654dd4e19fc9ad7af21fabab1d6dd4d2f4183cc038b14ae 0x1100cb38abe0076625f3895bbc6c7dff8c9c83550396ff800e3462bf9e0e7f4c53286d9b331c92855b7a1520da9f351bf703012efb40ca0ae85d7fc906edef57350;
Sub 0x1696343c0ea94e3dc16c0a9b666743a0ae45c3fb5e9c9180490f15eca052aaa9a291de8272de4fce5d8367d1639474b28cf029f37f3377072213b7916c5082ecf5f 0x9f4048b334edb516f9cac2afe3f66bec2a1047a3e556f35bce7d8696be413df7d3c510fbc972e7b3dbaabd04a968c74891a5bbcc703f4268996974977c39c09ac 0x1f1713501c29262598fe4f68005563d73d94a6437c505eebe01bcb5dcb07adc9b55377db5a493566d54f2bb121acd65c955af8a25a16f63399be150cb9f95af1abe 0xa30b0373103dc2a9f26dacdd588c8434c59a72a7787b40c40b0f40b1d6599bce77cc6d0a6e7fd704a76e1a6a6ba10c0d2b9f57785c4744ec49284f60906f90b449 0x0 0x1e67979f78c889911946c1a3cf0a8553f459f12a07dcb7044a5fef06be1d262703a6772bbb3271e26bc2aa8798e9498d8d6866a8161c5ced036c5682bd67047008e 0x1 0x1575ef75c51da9a6a6f7a9c94da112dc044966602870954fa7f36838f900094b95140ec515dcd73227722f9ba2fe0503e682b547fc98303f09a52e0b586e665dca7 0xff148dc9c75df2faccfa3e6ca25ed3b44cc3ac6160204072f823b8e20727f24763697a59af7a31af600ca5be5bbceb1b807c217b6668a7a496d93bfff69b8fbfc6 0x7314e0232b7b7bca311dafd4034656252bba99e95f65733f6eb2a7ea401ec7bb861fe4bd4ac0ebcd532d32e294d94a737550ece70bd87b7989e511687a63fba9af;
Dbl 0x8741c0d0ffcd1a4127ca0d461663aeab7bae63703e1cf85e773bbdec547e52c985482ad80a01e9e38f5adf51e17d84484dbab5fc2441b7024b6b0f468d9714c60 0x1c1499ffff99ea20655eded47d23db89f8ee47c37ab1e03e16bafeb8b69d37d0671b6673f5250f16eff1b7e791bf5a9d40fbededdab094afc5b4f587398bca6d3d1 0x18da691943a1f55f8a522af485fe08dbdaa06e207208286d47b1df725844734b4aa6d2cfe36683c2793fff4dafd3bb918fb1cf9860c04b901c481eb04aed8af5d95 0x48aa648b39b0394b19aebee32c01ae1f33bc884293376b545137ecde021096d90b85e9d06a463d0c3e9f2d572ea0e2a0795b7cdf1bfaa92a2e473ed5df06f535da 0x1 0xfd88e1629ee86203d57471c481873d799dfc14504668aa8699ba28d704267149877c05f93aaf6c7a6e9ca4c927bdac8e1af3fc249510dcad29a3820638307c42d 0x23bb351ff493311630a9f965a0e160834fed33725e267ce8c210f13f7cd62f4334fba7b1f93cd573c974c85017b9b384094cb5a99b91b09b9a30b2e90055c329 0x13324282089dd13297be211f42021a3ce67f6ea00425036f937da57cee021c80f62d41418af1405806f54e79a8ceb3bdd3708899d1da572160303d12877338e93;
Dbl 0xd22f787fe27916d9e07c82acac92cf812b2b49815297a2e37d16ba50a7b8fa353f71991b5b7ae514fa13451a9562d810ad34fb0fc8430fece6ef857aeb29ca1ad2 0x4e321360418788bfee18a201f58eda40dcb68b71e14c67716e07d079817b8b4f8512705ad5c03f724c68cdc4ee038c8555809aa880656edb23f4e8b96d8048d284 0xf7c9c206f025dbd5c89cb90e37d5110f4ed9418ca6ea789ab515af494a7d80d72247e27f266b2c3faecd7cc1e0a0be9ae707a213a00e71d157b9021b9668f86d1f 0x173178c9fb817194667d54b45dcaede5eb22df0c5c9d19c6ffda81b11e857f1b6eca3f6e47c90b1fcb2b2b0b42df21d4eba3e44352aa3dc21375a6fba2b3c5e014d 0x0 (-0x35848a475c8daf578b1dbf5033af3adcd52553d0079e4a6e4d494fa9ddf7ad233ef5e7a908072ecb53c06c392d064a28d02b81d736f98afef817e7ae11f78f13a94) 0x5648f53fa39dfb13ed1bd42e0477fdf28f63c4f4cfdb366e0d85fa3224941a054eb62cfb996d0b3d9052e794772f3d78273d9a3b45a367ac9437f5deed5f5f25e2 0x985710ad209cd8f36f6fff68f13dc125cdf13d35d068a23d6d3011d7f3b4860f3193c911deba82a04c72477ea7e3b004af09ed27c5c0c8ebda18aa709ad4a6e78a;
Add 0xa98ee8bd3044808ca5307ef8c495321731aca01477f442ec7b3451ed4375aa362656a37ffe87045715b1294c045cfd5d27a7e3e72b2e94ee82ac9cbc421b483834 0x1ee62cc015f8b6dd87960ca31d3224524dd3e59ac83ed88070a7fdd24aed59d13f88add97da6c923923e7755edece0ed2ceb8b9024ff4ca776c83b906eef401de42 0x7c741b3bc825ef15d15837531e5855f1a8ed604dd91e64861db2bf434c229ac5dcf227fb5ac53e92a146deae3590718b60c356e975fca0093d161a1f980516ebe8 0x5fcf475ee1fc1ae774b7d7d0226c951bff7831c55d5edf6a6387f354d2a5ee3b8c8792c2fb53ad39288158660f357db286c7e1a63070a463b7712fb27e8c46f441 0x1 0x187ac85598a8383d6207a63368f6b448c9a1a26f0a84727bc4c0fa7ca21103e11ca7124fc5dd05819236ab003c6608cdc774d51f4bee0049887fb6a3b3bbd63151d 0x1 0x81b5c4e7f096338fcb265e2b6d4e9193bc85c1685d3fca47031117fd7240d6076d3149964271fae50d57bb28007ea9f1ae82ed495de6b09c92fb3af8fda54064eb 0x3826ff886799b88262afe387343e2a8e9a714d5c730201c380e4f43d0593aab65261a43aa5e85963f6a5649ee0a469cdc8c8d90a9965fe5badec0e93839599a39c 0x1fbaa918f04b7b0007311f305d8ef0c5d8939e4fa7b87b4a76ef7f9a04ee1f66fafa29964098bc77b0892c684ded0b05c8e0595af1b7e709530cb6a650dcef83d3;
Dbl 0xc850b834f01f0f73c5e264e51e7a1e230231fb7359bf30f54323958f0e993bf66e872a67f3d33b62c35daa753232612d438662075c179b35104a4b42e955bf5541 0x8ba734678a4930bde438cdd60e63390ad4689d17c263aa627738adb4a4c2a0097ffc95d435de8072ab4ea12971059fd0c75d2458bcd67e0e3e87b067577ad606e1 0x1903ba0a35ccef80388e5d50d3c5d0cd79a6b7abd12c01621c45b42d11f876b9d9650a4e2fb3551091fca2debfb1402f818cd3a2e7024a6e791d32f7dfc7f6bcd91 0x162bb9799d5423d1a9527fc5bc4bf0c1a08d5bc94c189dda493472f700a12fd0a788e47c3a48e11c67898d4356dc86f02075b94a9931e4c692dfc089f97792bd761 0x0 (-0x536c03714c99b8ab5603f2710ae021ef9c947fed439c0620dd6175a2f5737392d9016b4dcfa904ffb059f1fbbfc8cc67b2e7a34bed139a8a4d1ac311c83fa0c40c7) 0x4e5f1ca32e695fd6d0ce2fb05aeab1edb4880d40d891e40214d54a9ecdc6b18dc47a2addbb657901b9ee6e74233e1df145e800be26b85d6aae2c152345e57788e4 0x8ac93427df3d549be40fbc9ec939d3d392fd7966cd0f627c5db0cb8d01cb0a9023e237d3365a9028f784f10d635bd0eb3575bf9ac166810ac1f703cd614b7ed4d8;
Dbl 0x1b62ffc7c77d51ac948b9fcc11ef6a57c66f79950761600200bd806a1c0b9715bc02ce4385a875d8a0efc05b27be05b93a94315a917e02d997b358d5d1515d8cdd5 0x1b7ab0a308dc754d843e41739be33e9ce3c81fb90303f67b213ab62902e73ec0d8976cfdf48f5f55bd3d69df7fa3060fd5766486d74c13de06a8acbc4f20fb5448d 0x26dff9c8fe80e549e041f0a4616c1db0505d230a74279a149d891ecb72e29d12850012e65704b2f9c7c33203c35ab632803e44b2215b05857942b289e1115dfeab 0xd3fc2a36fc81dbe5a054b69c502f4f3c97e6a187922442b0638d4b24764eb3fbf685c5f4ece88b16d778033176d53ed36ff6dbeb4815402dd3fce4a2656b20c253 0x1 0x23aca8a5a8229774473b076d9ebe1b8263344c14fdf369ebc647a75d247cc0e6cc8e38ff1e0191c036a4f51727c838094cfd4d0fb96508734e1e56571967dc3a7f6 0x177041e7c4c63402c3b0595d47d01ee329e7c32f3408940fbe2520c1fe518cc90b752c0bf7e6abaddec86d3616fcf51e3d396f35540c6db6e908e8ec34e16727f16 0xb56c964c8f85e5f0adbb05c2a3cebdec7a619d983ac6da0f58446330dbb60b6d730079bcadde827a574304190f9735b4fa92016ada49b57b875740874e6de3a62d;
Sub 0x5c05a7251f57dd2e9685dbd66342c004c23136a87482d82dc1a754e71ac4e68991b9cbe05c989e932b99a0075fb801fb6ad370fa96b8dfd34c65195c68d476fb31 0x11996b0e53fdd340daaa09868d869ed01828cf790708f2ac1c4f5cc63b236fb73db02a1d64091aef89239c0378abaaf6ab32617469ee1f7dee111dcf3f8aef1b305 0xa128efb3217d4ce564b0fa973a48ecb76e52058c841cdf894a6ca7f820c4d58afe05ea863561df7a05ca3c1342fe3b83de23bff0a29a543633d274331d4282518d 0x9e14594b4dea20ca99437ed0e5c9fcccb9f503ffbfb03cf04eb5962c7c3cf099ae742e0908644663419cddc06f75b192a4403126d5df46018978eed0f960c39188 0x0 0xf1257c29d6c34fee7645d86e58105419f9e5970ef73a27fcf1b339e0ce089ecfced58480d1060e02aad88036d28d61547932ffb9b33bd39dce914d46c04ccf8727 0x0 0x2b5765e670f7f6e79bbc5285e89659b2bc335b3f273c3e645885fc6e524503dabdc1427c96b0b1b966617b3e88556e70820d862ab40fd1139efc58d8ccebf94985 0x108a0821518dea576ae89a681939a757ccc14cedc4c1964fea5f5adfeadc65c144810a683fce2f6a2a48be6fe7999545db23607420eb0f31bb07089ff6d1e79597 0x1c6966d9808234b01efdcf106ab345d99977550ca5fa71862fd4a5d407398c023654ce21ffdd9e6d9449b03225e0a062732dcb09dcd7cdb7ae7b6fad795a111d30;
Dbl 0x1e1cf8045d65672107fda5ddb40a91dc5b8aa5a37f35dad03c2691e8ac0c207aa3d4fb9b88604791813d45edc4ba37d9821d7e9dac8ac548a95bc19da160dc86674 0xcec71af6a12d1c40fa9a14003da7ebab12c29a228a4303a5718f17c3162ebb4ab5551cbe5d117bc5f17fa04531990a9b57a8a95daba19074e711a6c934d688ee24 0x4954cb521822496c6d674785f62e486b60378fbc68618ea33a551f3185d94f566b80f9ef7c3d0be75b03199dff3cf1060a443a2fd4859f6548091224c9d53d65d8 0x4acf95ee9eb017ccb00684689ac201566fca5d6de64c271c5366b4a09c08402925ad8517e3803332a0ba1ff25921a4cf5b7d6de8f3406769fa00362ac3d868c4e1 0x0 (-0xa149b256c10c6325f7eaaf72fb71bb2e74204168d16d0ced8862f9df8064294898ec8031e8ab7961d977c4101c691adfd0cd99cef233f06e0aae7391efd3984980) 0x1c566b41b9053b0e9139ffc3cb364cd64ba6411c66c22e8fc99c565ed95f59de35f3ac9cf2ce360cbfc570d223f58a34da0a5a65105794d46a3250b8dee2e2baf9e 0x46665605e3d45815604323392459cf633f4a9f1708ec6a76231679e2e4fab5c7e5835d51b0ac7d4065747b1c62bfab21fa82d001f6e57ba8bd8c5105c00d0cdb71;
Dbl 0x182a16e6a57086cf3e7a1ed7cc0de3064d636324acaba349cdd3a2460ace110c5f066a138debb07ec37b43747366ee07f91ccf4b45f3568ddefc22a118b7e302de5 0xb71a33b2c100501430c376ec22e3a849ce67d6982f883bce99536b3b5bccf50bb781ef430952644568febbc365f3babee6679095e6ffcdd1ae41e467f5a9d2038e 0x124a77bbb4b215009ab77d9e0875292ff35405c69e7d3f69d824bde91752850aeea9a79b7a4be92314b0714809eda0e9d067f03d8d92579807cdb5f26bd229a7452 0x17ace743e02ccc2cc9d69d141ac44361445ac38a5abac7d6d83bac87ba61c63efdd32d7b53bf17808880e481cba54fdc714118c7c4a1c2a338cfc2613f2cb6ea96 0x0 (-0x8bc776d93a12bc537316d0da467292fada57599b6ebcbeb9600cee7086519fe8f22f4f0081adf0a8485656074cc0e3f2c54a4d24af7ef0347c17e4fbdfab514543) 0x123f59b625feb380fffc01c9c55e2dfe9b8553664d5aeb5bd939c53fbd5a8fcc9eaf9e4723f5782ebbcac9fc433e86d3af9185d5b4c2b7167c395704372acc990fd 0x11e0d153f55b7f44671959a1bdd5f025b3711c9abb98ac839b21610df8fdabc5d860c991de386c267ed221512f9eac5398ac0df92ba2ead406f71c73f400dba3fc;
Dbl 0x1bc55f59bf97637381611ad37b69dca57ae6d24a09e83d85d72ead016eb94285728971362088b8d59edf4df25a271d513e3aed442a1bfacce43bcaa519f07d8b4f2 0x12c04fbc7c0e50dc0f3de98aeb0a1070705a54f618f750e2a3c038eb1cf4f1797987758ed1c36f41d5d6eebfcba88ce87a7909ae82ff3c9ed2d0ed099abce859b91 0x16065e19792b62dcffb03ba0abb90b6c1f8033d4ff27b82410e76dda9a6e3fea9e709553e22f2992ec5c05dfec8a9b0cf89e1a72e3be73520594f2687da85bc1f1d 0x18b1537eb001b42533ce4de3d7242a142c8c28736a0132da45d4fdc898c7ddd741f0a9655ed1b70280b8fcfc6ab6aec373ed6f5adb70c03e4813313ce49db4c67fc 0x1 0x137830a175b786373b1ba19c15ddf88467f0810f3c171f1ae2fab6392cb6cfc497afd69a7ff83a0012bdcf40d9da1bd1792bfaba5c2a634eefbd97ba53a8d16ad41 0x1819d24690744d147c2ddaf6072f970587f27ab3e3772b6ea60c7ba6e7aebf4dc1ea95444d340c6fcdac09823bc39463518b8168754becea687ef41efa40de46de9 0x156debb099548936e00af2f147437dab638bc6b7845a7f6fd38fcb531151e4b4171a0f29a6afd46146902e1cc2ea6f83091848376d0a546e91f62bd4dc1005f1737;
Dbl 0x4b9e4bb9bae3836e8af1ccb2794e601ea8316e0615e5fa8123ec1806e92ee3cc1fc360a7de0c194343d055745755d9f38d72636847098b82fae7f6d3772966b62b 0x1623e2e46594bfecf580ee82b0ffe0d58b4e359c13a4e04a59d8fa99388ca787cc4c7fbdbf90536f9222616eabbeff72f5564ece82cfe5cefa4a2e355289309efbb 0x8b955d1a609de6ae86505d5c0fde30600cff04ca548c62d0048aa217c8db0980e17526e8ae1df6bdff7699b3ef841f14e90587ea66f19676f08a2619948c93dfbd 0x1c9c6cd8167990ef19bcfb083a0a2f9ae50c1f5a0552709849e73e51e46849f1ad3af5d112331bd243b48d511fe98d758522bae0002f56cfd886bed44833b7babd5 0x1 (-0x1a751c5195b71b7b8da936ae3ea4f2b07082fbef4d8f285e278b8768f3e2266336f5d4b891261ad441e4c4ca3f7a19224b852b4f79efdc9f4ea78fa92fb60f2f75e) 0xb2b112031952d0cfb11a8635d1c1725b1bd50ce2e9f23a11e04f0f9125034dc032d241acbde2204f4cacdafe0fc254972568b23f4bb36be2437663af6be2ffba4 0x439c27288e243daa2e67de27af452511ec3a9417052936d565d7ed6df8accd60cd41f30a13216c97660dab165d6538b69b000843ce9c604834d220e24b9482b413;
Dbl 0x1082778675ef786f63b4d78a985fcb19d2bec31ced39c6d75a8e02ce8f3cdf9268ec7d75ce45354c433903a9d9efa88c3a244db7897b2c164e31c96f87f03106c69 0xb9a59f51140266584787f5cd7322de1a47bc229a764e6b20041cccd36e74352d4391223983c058b1738a62794e9356f3188df57ff45115e0c1fd4342b5f50deab0 0x15f87521a2cd421c07dae725c33d54290c3d91cbad69f55932186fe7028f6caf40e18b6837470cba065ed6186d41fbca3ddf3395def7e1eab62afcecc757915b356 0xa8988ef5454998771086f25d9cdb2f3e6d273726c3ff99859972dcc01a56434f8136d9a27544de47ae9bb4716d5ca03c3cd6f76838ad470ee2a5a012729dfc050b 0x0 (-0x24f407d34beedfdadb91669463d5a4081afe17ebfa502dc50be5d225e2d6ee352a71eacdedc0957f4f09c8f02df1b63cc8be384eecc8fe28651953b034e02c6e942) 0x8848b7358dff44464b230153a5a8072fbb668cc457fbd1328127ad753cb4ad932777b49b9e7840353d73dbcf2049ceb17418503be2a0f1f1eb639d8940ea190715 0x56fba8fb26e07c9632ead332fd0d3d536ba6bc1ffff32d9facb29b64a4fe06f29528b0c6ab67adff5358775bd2736fee796351dc563cb918639725fe1c757add90;
Sub 0x197f67b13a9d2ef2376c955e4c287d234f66a0fcd646db61b8ec32f4dc86baa6c1eb50c5b053f461332beb8241c135d3244101590f9735e34e11e19fef00bad2353 0xbe6409d4ed077c16efd9fcd37b30092948117030065f957a24fe108685a1b598222431684608d2e43bbabd79b7fcca7b2e08684e6ed56e2bee280b2547cccd4700 0xba546c345d7f58eb4da5fafb5810f88a2d884e7e8e718d515b825a7a0806a19204e1f07fefdb4782946fb323f259e635e109009cb450ba6cc3f3f8f6b1522f4594 0x1fb41957c26faea4157adf8f9f7f2d4f0ffaab26a6feed5a5df1ebc4ce8d27f95216cf0d13db785cd37cfa4ff96968c77ea858d31857ba7b4d3d5381d6e2840a3af 0x1 0x1f320114a5cfe616e79e9b7020cff4866051fbe193d492b6ae224a4240e08e7ef88efd6db0bd071584a8c44b826f0574a3a5aaccc32cbab9e2603c4c48432282d49 0x1 0x18db446224b0c9d41df98ae74044b126ebc52de97da2d5a55ed9b7fcc151b32a97e250bb66c6a7ffbc89d6e893fb6a62d5f5b03174702e6524ac0ac15ab9a5a6ffc 0x14510d454a5797e3cd9d01d80cc83205f2f151f34361f528154f73555cfb1b6bd37b0b6161e64d7b44d992528cd9d8aabcdbfe888b540c86b0c4d53a06d9fb3222d 0x1942ed4c6c03bafe842eae135a53014299f459c53b4b8034589089da87a64dd762676125731dbfc649636670ec43f59f26368b818cde8d6339eda4c1827c5abfa2d;
Dbl 0xc14e1f32827dec5c2716d7e9be3e96a68c79d8bb6f477205accc6b7d19ed6cb7a3820a2aa638c9c268a9467d0953d986588d4e9961043c2f8cbb98800e740efa63 0x17423eaa9a2ed31fa3716cb90615baa8927faf9a8fb4d1591e57374cbe5c02375178ab21924e82b38823d704cb16db22b6e2e2ae434e8e00b9a1808469e4947437 0x6e79f8ac40574912aa9846828d6a6a57bf1ba224f4aabfe75dc99bedd3b95ddda823b2113336fc2e231e5b6169b0bc83b66d02c99b05aa674ae43ffcbaed09c80a 0xa721cb2a52d8a8f74c68901a751a4e80b591c09576aac42106a6d939c745b360d0ab8646b3ba5030b396e674ece5ef58772585a02b86e02b34868aa0dde838d2c9 0x0 (-0x47b276862ed5ef1eef56cf3f52d2e8be37e3b9581f516fd28b9bd01dcd7df86d1133f2b8fb33a1f4027b67fb3913c52f837c5e6729d6ebc299b20f02cb4391e07b) 0x48fb717097ab54585b0585778a3654c17118fd6b42330c8a09461f999dd1ce0721b122605d2b0db4d3ee058d91ca3b18a7450ad2e8a3e9f9d81962d85b6e757fee 0x3f19bd6a705fe156acb65005f59f3f702f799fc33b111d52294c9e6fd5939233c40094b48b7466e2e9cb578c117509efb4695d3333d8635600ff4f8f3758693fe3;
Dbl 0x643bc311116c44ca142be3266b4b619a4bcf5f5b3900929f8e919413ad923fe9c0f98bf96f2c2f3d19ec6ecdb9c1836800c770896ad1dbc68abfd5f97dc0e474ff 0xe48755a8d0c9c4281678e341c822d702dcf52e20bf26b6e9e65e13e3684f085ec9fd112c3f7d3e61e951187255795d58ba1ca238e6fb0c6550b89639999c235347 0xef7143f00aa0e1dfb61f0b10057c2c05130894557d03b65a13031e1b189dabfb5765d3579a598de2167871d7109540a4bbdb0192f55138ad42a3df4c609584b824 0x132bae901c9650ef78cf889773df2e3a5b58a8179d08e1a6f37f92369560cf9d8877b99f552d144519ed2be92759d7dc9fcc640755c53819b68e8ea4ad0487120ef 0x1 0x2815fad35459fa154cd920c6a49da0b4dc1f244195f861c599f35e40f98cbf4698008b389be359bbdfada3278a6151eae1f6649237e193209bcbcde02f3c781784 0x139f5f2c6a0ecfa9eba211179a89ef7e449ea4a3c2d76be5d579d8fcb09589ae425f46421925a3eb3e499ee63a4248be5a3c603740ee580e166d377808499c25b4 0x3c0c4ee89c6d6e345873a98bbf2d7eecc6676a06035591f08df6c6abe60033254ff00c2e19e880983edec04c4594789bfedec03b4f3bd12e0a64e279a88216661d;
Add 0x1f9f9503a32905582365110cc308370d102ceed25ae6c343533e4e0da4cdec9cf1dfd79f537e44d1f6bbd54f518ce44f17a606e0906eaa2e2b608c4372b5b2d7478 0x1b905b425c49dc03b687ff77b9c4c9f8a913013d1bc72c85ec63b8807df05c8994a680ce81dea974112e32217df5d07af7121dc8b047afd351a3c3bbd440429b2ba 0x344275cfdd3d1b51ad0674e9e6d0b873227e1b6c2636363c693fa8231e3f913b15c7d44313994f8f150f2b63e8d364ab08b765fc6966daf7c98f2a530cc95510eb 0x12b81a1830c2c03ecadf8ebc62bd637784bc51a4f02b3ee8b20228bdb89493fc57f9504442192a720d66df65a761c55a948fac5ade2800f30367c5a7c5597f9a08c 0x1 0x1e01c7a219c5bf3e48daa47661ff414e9a58c99f86217734c465eb3407e3bb210f5bc5cdc78d5708c052fab12dd65dafdbe959852575a222b4bf17bb67d93d95e1 0x0 0x1da75df8a91ca732295114091b70b3de1285aa5174fe3f94218bed7c10e6800a4bc989262a57f088f931f6cd64adf89133d008a06f7a517efe6acc38e6e55e1c5c 0x1f404c8a962ec1d7b9d3728d95c0e56d8f4b53d74be6e71e9a024e3ae8c34d74499ce43bd2c32b7b9a5f3d6a9085b1ff3b1e4133b21115444ffccc66bdfec05cb27 0x127fb33471a3cb24685d8218736205d79c48b79d0c7035d6bdfe148a93505de500d74391d7f1a14384e54209238b3c73ab6f347ae50c9572b5c2c9b0ffa087b176f;
Dbl 0x26b3d0fe50ed4ca23bcb6370f81429b17cc1392a968ba01f6663dbccb7946feb57540ea024d98e3b253a718c966e65a88ead50ba9f9ef7727b39f65c8eae97cc56 0x1004cb7862f5774680de3d1c9d7020cd6d5b7a1ce7ff76c47b3d8fa727ca88985468ddf7f9fb8fd0d54ca4f740e900c56240e3308f1208aa17c2ca26d9973ef2fb0 0x4bb5a3af0ca49ff8a408bd1d5561e58e8156de3f4840c0b6f3cf840e149987c2b0c84dd8d90223201f1a410afcca5ca3c7db14614400e40fd4168676538b9f23e1 0xb8b8fc9f95464bd35a9c25b1c54a92b3bb7872033c7b5c1712628d95625d3f1403da2d687e319a33be18d2a3d0ccfb594d13a982135a72939e0f994faa903a830a 0x0 (-0x46bc06790d61bb7056a80990b989707624615beda168e81ce9f4cdfcbdd4a43622042e72831cdf08ad09fc23c55ede7c213f996e8eeeb8cfb289a2c3df29c46587b) 0x2ecf02cb724ef5fd0d06f7411c22f76a1d29c9991caea87bf257f373b3e978973e3a836da9f35173ac00f1b5651739f0a058b64171b48174e617ab4f1e3b56840 0xdf69ad311779443ab9724eb9fd96a4e8cf77202de2778a9ae09a979fa747e22120e876df1ea5e0ac11384e0cb2da34b8eeba10e1ff9fd8edc23e8fc0529fa3770;
Dbl 0x191500fac85e341e9cde1610a440cebfe85b0e307ad2011a82e77ed15c55309d7d3d850e29ee5a4493a8381de6d0a5f83a5b2966bc4308529c531d6274fe727e7c9 0xe52fb149df467e46f53b79b441147e53e69eb67487a54276bd8a695dd4c904fb32de1e2e1189389cae05745f9200224ea79b8cab2392296cc07d85f0167ffdac44 0x19eacf017dc400add93132d9f6a17a3247ccb8a91ad31a2af10a833449b7f844b530a622e9ef4dc85c9f7f48bff03e57ac96cf5ba7146a2873ee60ab6c1b3ae71dd 0x1b1d063c5010f62118a8581595ed8e82ef18eb59f85229d0f64e9114a7df848a13afc1518e2fc470a6c4db147c8fea077c72a65dcd8e6134bbaf1c7d82f3f1836c 0x0 (-0x10a371643c3269329d34358b78a57007c6134f7906c59e84e2b63bc2e97bbb1ff62f246de7ce5b61d5f6fbb5eb4e8913219e36c7bce170b976eae26172ed4ae1a55) 0x13a8df512241da73e3d1e51b362ae3ce3b979ad57f377bab4df0b170035d61802d2f4969c0b1e582f9c9574f10bb01e440a1df0dda4ba9e638dbcc574b638c1afd3 0x154078bfb2a7bb0145554f172063a3f10ac638da5af49b51956c72cd59655a49d8b49cacd8f0e93c9d0ce009d19e6cda68ba9f885e17ef2f60e60a5d6f4fa2f1f2;
Sub 0x148c0e286b97236b59e7372fd0c2b8804bd6229a3711920df5dc1974db0062ba93ee5379cf7609c5b537f6d679e8cd86d0022ea6069927f8cfed6c69f32a71ade84 0x1f875f6d86b3b3ca372f1b364c4a799d19d060e0e8be20ec435608821945e561250253a007643c6a1fabd9fcbbab73e9c72a61a10a202931a72d8a3c763fbf9581f 0x10a9f661698dbd6a140dd3902bbb46192ef78aae8b8465240f30cd94b9f88b7650f1ddb89d0b8005d36577cab4c95cae498a531a2a6c6330b5f31ca3e13713f8187 0xecb9ba71740b41a38249c64f7c6ce4824998a865fbc333b28829e13c406aaee8e2b8e42d9b4571fab347d493d748e3b234f5729a818f96524da4e228b284045424 0x1 0x1eaa23432842795d279d3ae8daf0e89fa40251f34ea002c19b9240ae745db7bd783cd2cf999951438507569e6a5d22a5c96843f7620cbf2a24840771e4bd17eede 0x0 0x13b08bf56a2cdeec81a269b0a43f86a5b28ee2b74e8ed93ec9b2f8fdfd5a034b5740cae514a1b8c23ffbf0835d99f2000e1fec8ed4ef71a58bfddbdaaefd7829b6 0xd3176ae6e6de7eebe47adde0f38d097a087719cda5140d736d6b70fd7b35e471720595721d9af47f579b9c9a9a1757979d8161793b71c17cb1577d40fa12a38db9 0x980029d2de8884b3c4f9727f98746e1d64eaab23ae956531f5c62e9de4cce79fef7c48ceda095591f1002918a1560665c63626d715a575cdd0b8ba23f14a1358d4;
Dbl 0x543839250d75ea96396cd3327d965349b5cb20ec79e5b8b65eca8aa68c24880a67de3b22acff1ee76295890696e4c518732bf87bc561e9526203019dbf1c8caef0 0xe9c5308191cae26f1c14340aa97c57a254a89baeff60559e4679377a086da749ae59b739eec45657be9d2bbb58aabc7383542d9664c54ba89a2f04c45a34de000c 0x1ce195e29d5e92a4c2b49a9506c67f22bfbcf95db931ac02e6f3e5ba26e0062f6689335f7792e4040306495cff7fdcec56d376facb0015cf5816329699a9d31f436 0x10eb0c656d9705a3456dd7f5a1b2b422f485d725f8c81b925eee750a78bf0aec8a1cb82c6877f704a3c207410620c8228ef51ec7a3d3d4771d8a99f0309c71b5813 0x0 (-0x57b622f95bd3498c21b63a78175d0aa5381e0ddfbf8adda12f46d3ebadaf6cfe60d37c08c5102a10d87e62b52d13f8841e45b81c238140adfe0604bb2b9e0e465e0) 0xdda78ecaee665724f5537ac0f0fd28042c09ed5c7ed9e805c1855ae2d625b5cf3f48f9e6014b72856a3d8fd6df982ddf09ee9074f666cb0dcb6bdd56ddec58f4a 0x2c86ba1636250c06eacd3de2b13acb162c4553d45d81f5768b045054b80a4f62241e58cf842ab37db93c811a58335ea63e0dbea4054651b15bdd32eb6b908df9ed;
Dbl 0x11ac506afa5180be275b39cefbc5bf74ace24166409a65e8bf60eb00dbe6ccc89d6f2a63ee08f59f0448effbda0451194baae04b2b34681e2f845c4c5e3757928e3 0x2919379a2cab19f14b5954e96c961003c8208185d433ccbc226ab5a03b838f85fea48830f8d4c63527a267eb7f7b7037c92c41fa3cc7b983d10a73f3f1e68ace42 0x8763f7274fee80fdcc5d01a359c8ffd4e731cb0a7f591948479f90e2500d64458bd392e8554320bea8181f5fee41e8c34bcf5cdb6dc95b09d85e405a48a9a7d27f 0xc0abf8e7651fc87dd0badf213ce6479e8c881a292b2c88e2240e81d9ccea17c3afb52f08f5ef902296fac3cfd92f4c3bba27eb9c27fd9224c92490d0684e5331ca 0x0 0xbe36c809df64c0212c953f223b0d11fcc049af066c90fc106e53af2f58de6c23bf450d2591b9021dbdf2fd2affce8de7a1387e3f1b18ace36002f3fb62447c09e9 0x9c2b552f211ce2b8bbdfdd7298cd93af948ccce1d050b7db4d7b53fd884437c8cc81b62b0609031b192722028f54aa99a4b416f9133803c2be6b31a35d25291511 0x6a68dcc6d48dabad87127337f7523095444a43468acbb40a55e33a21d22a4367e8b69aa97c699dfe00c46df9caad6bf5e48cbd47a29c8177047d9a07f6f8d31097;
Sub 0xe6352be5891dae269ad26702d516f06e77183e6f6aa23d58872f115efd954bcaf81479dc384d0ad7451e17f9c206d159c528384ed981233ac1e6e257278648a486 0x107d101131533640fffbddaa0d6c6ab2b1ca842ee81710661dfeb34c2877aa4f5d19740d9543fb64afaf74c7956021482a6f12a73b28fa5e73fa73ef0bb4bca7abf 0x1598637df46545420c1ea2190bba4e2b2f05217aa5edcb21cc8aab63e18da9e48195da36ceff99d23ebaed4b6a804878b67e7ea3fb59dbe3f56bbe03bcbd0e087c8 0x1214836871777b5e14b9b7a4895cf64d8ab783e9752c2c65a427f80ddb408ea902d0d4757a4950fea2cab1b7229795bb5223b17868a38139c91633503369ac05382 0x1 0x16293a99375a715077dbb161e06727a4f85841d049b2e8d0700728cf0db18424844033cd280e4dedbfea44a2a57d8708eeaf8f9467b424f413510f575c023a510db 0x1 0x9f6d27dca85c07ebace4c9a381c8f30fe1418daa1579b7fa95f6bdca78cfe9b1ff18ab20c68cb2e5485c7ebfc90dd75693a7597792507b166dec2bc9ba82ae1a2e 0x6781caf5d379828b059cbe90d302bc30d9319ae27e59e0fca6cc1cc623025a809649ed06ab26f2526ef427cca0aa3f09d45f87d1ae6b51605dd6340d31b81f1043 0x82117b4595600810ac665b50466c6f72561d6e3671a402d64f9c074086ca8195be4664bdf5892482e858a6c53a25cc103f5cd25e0c289dad344583d3c0bbcd5c3b;
Dbl 0xaeb0da426fabce6de42cecf09d34350eb02ddcee1f0d5a8390f24bb8f0dc4a6039869438388e97c300e5321daabbe8716759152f833968012b01421839ad84ffb9 0x11b7a8eacfd95666d7a67c691289e94e225d851bb5cdfcce7834d049c5542f4787176efd0c11b2dcc9164182cf5ffcc8c46384b0a62e54ed7ce9cda56ccb306e1d1 0x1c998627b4d1fe7321ddd7bffe47db85aa255284ff2163b3ccbac749f41598411141b1760dccbed05588a0ec1549bf2b9d11aa3894a108d36d57bccf4e71feae8ec 0x1ec567266179dfda28556140fae281648f6cff1332491397a5c9e30263237b07d602051089324887e6993344c600247f660b8df694faa570f710a6499ee98c398ed 0x1 (-0xac06bb6dcfe0c189b738f805d8cbd5ba53266903ec283f8267d46ef6de1c5ba955bcccacf74d03df2ad49ae0afe683bd37bfacf15e73337f8bbd8a277ffa70df90) 0x3b9a716f929e2823cd136cb9e230f5cc3ed9a84d6ae9e936aae0dea23cd5f19a1d66e0bdb3c1c6a8083f8fbabd77b5bc9dc9b9ea859439ec0cf32aa1288a61c39e 0xa7fb7078b65af9e58699bf551dcb1c04278bd6785d250e2a7be4fee95bd205b754e042b729e9ed908052f355b30e1b7fb866f26348d403f4f42f651123b2e9da6f;
Dbl 0x13513339ca10d5e63ff711f5b3af3beda13318e0a0608ec522f57f39dcae999acde34efbc5a4ac101835bbfa211ef7d3db0eed50b95f01f2f18324e5025ad76534a 0xe177fce9472bd680e67a21606761b120c27f6a8c7c878351e98c4da94a833ff3c694012fe25d348fd07743136c17370931fd19c0029c2ede04cebed72972ae547e 0x9b3b3a78d6f52301f9f2a822b0db022407167458ab032fac2248a34cb4113d5c93fdb48ad1a77322584e021cb9b624f7e47235a773d2c02ccb74b5aa1465028565 0x3a0291c3b6698fec93eda530c13ce3c16358e72ee058499599c0b6f30abfb484aae2eea0debdf93cc0ecd51989e89583143b314a60491ff9c9ce1b7fa340588d53 0x0 0x519af6415003f8b685e400502158836916f4c94ef454d1e0b34214b42882e46993f90190a200c62aa4513bf587e8c1aedf36f440331847c4fc74b99f4e708f7570 0xba93ae046838faecb55bd9c7e43cc69528512c6591eb3789cb4e57be0fad1d3b168aa4be564f779f9d03f7820b28083b75dd4919cbda4c4528d1900e1bf16b06bc 0x2304b9ea06e6b52cc215de51a2285a5cc86e4a1c904944a57b00469c6ff710c63d4310e61f534199a19a725bb4fc51f9bb247d41227f4d51790c31ee9cfa40ab53;
Add 0x181f451966f324ba0f8505d28e78684f11b2855c4fb38689f5e3ae19f3c096f4c181756428f42623a6bf034ba54b7d314aec67e66e66d69f3e1dca5c3f5125eb5e5 0xcf6cf9a534ab20f5a6811e5bb1ed473eaf993faebc42f1e2ff76f0e97e230e9a60ea244ff01ee2ab78b63476944d1c1c95628288a11046af9b6408eb09993ae534 0xc8045225733fcfbb4ce01c2ab3f809c2c566ea93439961fe8fd9e6d09ff8e7a8a0fc20759281102dffc2edea6807e07ebceef3895164fc95c91508d01067e62857 0x120b03441280b58b3ff90304b57469e212e62addc044916eea155cbfcc60315965a9dcdff23e51e457c10e9cd7ca1aec9c9a9737618be82e696ab5ec1fd9736f4a 0x0 0x1af26ee29027d19718dbe295013e1b6c7fe3060b4382439cc79424f9ea17f2b60bf2b5d16a6d4d36a77925524474376053c9d10c4116c49b68d54058f7afc89718 0x0 0x145028357aca2cf476f9349af4fe10201ded7e083fd77463da4b696c95b7c4c5cb8ef2077e28e7edfa613541776ec9f808c7c49911fc7160f08ca9d885891dfe9d 0x122f063490d9ce50f546a1b51d805b4d0acdb6279173e6aedf62ae0423e747f4845e009a019e42f6ee54ebd932e277b0cbe1216e6857abd9a61a75fc5748565583f 0xd99e4144983fcab5f39515a181d114edc490c598fc3393bec7f05826df17ea0ca8ab89468bb5baf61b09e497570f007d379b9941d5935163c2822e6e099cace8a;
Dbl 0x1e1823d666a9082af2a8b8f661850392b4080ecf2af6b3912171e73b074446284a6f951ced620cb443748b2245d51c7b6fcac2316f9e9b7c38eb8ed701982df1e45 0x15880febb39f5ed4594a4cd3daec7501ce211df67ad4239815040765d177b05383cd7c953e3cb733290446f7fb20d935ba2982314c9c310c7b1d35f24667b43d1bd 0x5d7aca5d69c2681d87f32c7880ca8a6c321b8d4c60f7a7097f9e325bfd3b3cdd009b718cd39b3722314060d5a1b4c9a8a333fbc458d707349f5e7b930750417e66 0x176ebfae9fab533b011dc511e0325f721cd8760470f00b861af367a8c66a8096224125afc0c536f78e871c4f6e23f88c0f2ca5f73d74d35e7e990a9c6a31df71376 0x1 0x7c1bc157fe17cd80f10c42fe40fae2ddabfeba338aa8ecc665b70723aa03248b5b6d2f7b7913ae624c402dc40b5affc0a7c1971aed7409976ba4c65563db3a14c7 0x1c4d5567ea3989ece76c9a12205ce720980ffe3c76c28760163aaf98ad902aec3e8d0f6e615c17e500982f4cd82942a7c575494c0b07ee212ad52b753cbd9ef5d8c 0x160981019a1e06d0fc379094c44e447b35fc3ce23969d08d0284a0c9a23626cc817f4c4f89fb7353dae94ed3f89c98459b41f76a267cf21ea85d949a2fbd07d93ef;
Dbl 0x44e981316ffd92a482121c7c138006e936fb45ab291c16aad5044dd981fc67e49bde4841139ec75d97dff16d2849fe051b6d0fec415a5e44e6d366ce5917e9cdaf 0xfa1296b74a9a366d769f30d15f11d0ec5afb5157d95d7f7fa49c43d3869b32c8c6b3c016a6fae37adeef5e6b26c72446f3eb39d50e41c495fc5629cbd1d6472713 0x9e2ffec874adcc5604402d346087280cd343132791910d0d86b58b32d1c5578abbac213a380098da889467c4e69c672a06f6fcee8e640463d6bf5dcbda6cfff8bf 0x5e6e6803ef5bb6d81e059c6c4fb57f3087168e0fd3e4ba01aba4328990dfd26f7624093d3cd08fb7b15511148b466f14aeace93fbb814c31b57d355894a4fcaaaa 0x0 (-0x29e3e82b26a36e3e59b0bb6d88731e15de24f0c919adee2d6cad898b34a68fceb210b8c6460414d2d82260b0277be9460059d05142843e03749da6d0905cf59badc) 0x94670cf5857b6f2f934193fd2e8283937d29ec87d654111fd60f1de18aed59ad6bf3023870d604524667900f4d382d8676bde31368f419e0fb1a194734cff0cec 0xcb5bae2cb0241db8088d498761433d5eb8bca252f19103e78d45db82df631282e8414cdc23381e4303035b333e6636dee07b9bef23ceca51c096dcac00524aaef;
Dbl 0xacf887c5b957a43a92e9a315dc77e9c461c9b7ad355841017d0079326b67ac340dccbdf5ab2933c85940f7d60c5ed8ec50312eab4d1090dd7f8d0fc64857822f39 0xa1a9516cb04c16c4f1c594fe73b06f3d13b83d67a55572aa49f4327c5c364ac50b4e63939ba9aaa6ebd9954e69ef0783cc2446284a2d5ecacbb347a4f882a154ce 0xa66997ee6b1537d979aa4cac2d65f7ed17b2ade3ea40c733361fcb5889c56b6a0b088e6200100f016473c28bd870e285296af544bc65426ba1a0f04c549aaf99e8 0x5869454a9a4e1fa884d99bd2eb6161af474313f034080cd55aa811572a64e803bb655c830b5138d3f315c91cbcd81cc327c6f3acc41465cb30a2e226d953a5d245 0x0 (-0x1038aa6004eeb139e4b9cd7c65de080f233b20b9ac382db2a5b435c22440d7925627a6581563a8233aa9ec28d41357033923134a620588571dcdeec216397cc84d6) 0x3a6f73dc841380570e977523c8d97d62a4d0e902aba2e7c99b8720094862a33eb7b68d99717dab88e6556d0808760a1d2804ca877e51a10d2154bcc23f7295a843 0x1dde47b686407d267b151f89b21417ff85bbe3eeca852ce9c3dbdfd29cf4673a94e3bf9c18dda9213e0b47bddec50018526e3046a3e832f11ce6b8355dbc1f164a;
Sub 0x1bce8f6c37c18a95b5fb8a14c0e156a9f2d8a3876f83f68dd91aba236e5e7da4d5e89e4b725c79f6d3cc30fe66a940f8b830d72262b9317d9180f905b1535bccfbe 0xe609b468a2047dc7595a3d8ae79f4b2a3770988dc4e28569c55623ae45b150b42162328964cf1aedf494434bf4b05443fcae61ff08b1955a3458cc299cb47c8a9a 0xb428f3545740504a341497a0c914a6d63b5940b8a88eb95d358e011f15639ade1271515ff4ca8b0384e94c3ac59703b5b7ad1dd82fd64f420cb6a229600e04ce17 0x1bb9f9d040e4798fd986b57738c112412dc47a4d9e072ed40849e0ece1684fa10e9ec310a36da8fb8f7455202753eb33fcf75e429417bc970975a7b7b5bce24ca33 0x1 0x1db23c365f94811db242756330d8cd988d11bd8e66c5032f527fc09ccfbcafd8750ad183523b9c34dc2db778d424c07daedf0fd7488a7f4882fb9c926c6bfbb9767 0x1 0x19ce134a6908bea6a2703964f793c408408b528958bcc04f53214b0eae14c50f79544f0f0bad10d3c5569d09106f8cb884f9cfe8da1d21841fb643db7b1bb3658c7 0x1829c75fb23515ff6cc6db8dfc4ef24bb72f7af9f9d99ee950e6e0a78962310c52bc433fed99546d61c58cb0fba791430ac39aae5979c12ad43f3df6a54865ecbca 0x1817e444bbb79d544c6a51b62fb1f9d619274b934b25eb4eebaac160181ff391c879fd04414abef904993a75b5ea027269d9f0233656903aad5077ff3d1dd731925;
Dbl 0x138f848a1214cf1a451400d694513c49870e435edba3b5f16f6a2cade1134d61b39a6877096f323a0dcb348d5e3a074a3b567452739ffc18ced6063e06f80ef48a8 0x1421e60bac9d3779944758c0ab930160c6576b0d2e2d41e0c641ada9d91219d8267ed77b2498fc73afed8a6ac0dbe16e738095f41e9ddc4e028c24fb042a72c143d 0x12c85ce00bc63d080d9cfab2f7a6c19db5ba232a4766248601b99b1471c0d582a48b7b33b8dc5bd7a49907ba74c8ed4adb1e2cc61ecf10fb8ada34383dc4dc6c8b9 0x1a3eb53add831062e14e4b1802e6f351dd1f9e7bae20e675d613b4910b48fb331b974bad71b3f53b2f5bb9c9fe6f23d5cc4a502bd1ed3d07a0b967c795a0d50765c 0x1 (-0x59cf8577dcc31112a14b8c63ed008f58567c20a722b7b255f7eec9598244371527f84ea56991ef8235177c565b2ed722ef4e540cf016a3e40e0f7f6b69887e4047) 0xbf4f10eac6fb8d1d71b96c4cc485d35a31b28e5cb2086339feb4846185a0282fbff97b6318f07d63613ffef7e37b5dfbfd533206db9566cbbd7260d97b51d63b31 0x100af088bb686a0169c7b0ca44e07648c6082098264c9c855805a0f7d8f9c57feeed1b26e8a219fa32fe29e32ed8138fc9102a5619e579f468bd1523b347dd00a70;
Dbl 0x161fd10ded2700cdc0d0de57ea15c14aaf4ee1e460dacd83f732804e00830fafa3d003ced27a6c2f3d913dda6c51f3562bc5579614ca2deb8f1c877a207f24c0def 0x10a509334c0d8da013bb6da03e84993130b08a352e606776b6cffca10075ddd89e54719fef5bf961c89ecff0dd21f87a6f08fe8b78c5ca06c4e92807332cd26c001 0x13179b4b41e8b4d6d482787d71fd8a53776715b4e24cf6bef9f2f99b4cc281555065b64e8d19a1c999a5a18a0c58bb7e705db4a853895338f3e4afcb5ba9ed8b76b 0x37cdcd8608fa9d9808beb206d0e682f95a6e0d7ffccda6a0f71b108d89c3bff882a65db353d0311e74eba79e3b9e8f404779768a5d812473da2fcf3d0fda05543c 0x0 (-0xc06b114f83a00af17a43691ee11887769a6bf0e2e5cb54aca3cb990f5ccd1b76ec014e2a2674caff4af329d605ad72a7629d5a3322611386f37c19288ab5b0cfd6) 0xf4bdf1586cf0c897f7effae5be5829ebfea1814a0cc78366f199a7c63573470132f4021ac7249c26683717900a6d78adc7256bb59575e439404bceb3b5f8d4c35a 0x2694f93baf84269ba8eb53e2f4a7d5ae4c18d0a4ca280b81b2ddf10e3e8ff88e4d11384ee8cf1be933e46a9095702d171c85eac15525c84f614b8760de628ed020;
Sub 0xd8d84097ea35f8a27a9572e4928f5144a30ffd93be81b8d350b1eb9eea8fcf4fa0297836cee2c8bd4014cb9e39b3a2f51bded8a28c0db7caf7369db386cdd1b207 0x14a92f90c7c2dd9ae5a1ffb7cf1c446061908c420d68f2b790d9927cf01820273cb1ff98c8845526d5411fc400791dd41329e9511202fae49522daf4aa5655f7ef1 0xbb8ab79e986cd221f52c3bd15a9a0694c00b4645bf1d4e193db5d239a9b42a4ea7c34fdb8f327803cce9ff1ccf2a088023e83887e94657e2ae140a37f14b4c91a9 0x1bfbd9a2844ab0052e196de86f6854d0cf1ffdf320f774bf25f66a24105dbdb161a2720726d7a43af35db02cdca8daa65bdf153a66c2cf222fc64d1288d67c7410f 0x1 0x43cb052e09d4d5176e189b388225fd5ec86c3ed1ad0137b64b07a160a6f2904c2aa5cea07dcfaec360eee14caa7c87fe125ca003cad73629b29901f5010a41029b 0x0 0x1cb64863199aa6cc36f8fe50c869b0eccd0747f83bd23c6600530498784a1e8e1c15a1392c3347373ad433ce5e18bb50bf40ce7022c11fb8bf4f5ab1bd8388457f 0x5bd6d1d6b5f14ef36fa7287a6dd2153af0dc0aa75791c81ecb0b06f30cacc316130108d2433e85e3931300c794727e785aa46147122e0bad9c0d228fd294304027 0xbda119829275f5bf84052fe73bb207380f3feed0302ed204836941284b85a00f4288b635fa166d3428aa7b760e9e2952e9c0fddf87410dd0b72293ac06683713ab;
Dbl 0x1bcc5ad0871da53d5bd504999b68d9165ff4e4cbec4d617e518d79a1c90e1a1ce9fd1296a8a44a886ed1f3a24ab41816938f401d795fedbbcfda0893b36b73b29c7 0x1d90a6196d26321cb1cdad25af2f7615a549ca5553c0146f6e6a7953dd138d3ede0d6ae77b8f009be699267268d9a4b6f67cb0e925eb8a67899221d6c9c6a97608b 0xb80033a5fec73d19f63303d3a0fc362a7308e78a13fbfbd348bd92be8900bbfc9a3fd05bf654fca86192a9fc0ebf52d0e1fbca5dbc7ad87000a9d363724325e5f 0x171889775a9cab7e33d452921fecce4abc46c1ecb9a8de48226f1929130492e85ea494b14cf5548aeea7f951979f791d1cad3867ec17707d0b90b91de08fac81e65 0x1 (-0x13a7976b683c796c77817c23fd7a990dfe061d6017700cfaf0b9be0f16e5d155b897d64590b918e49f1b8858c1a597f73922721cb7c2ae65b2f70a36cbd7a283a1e) 0x1825f246c87707b7d6a9d3a273273fcc0021b94d1f75f3327e51bd0f444abe5a99097efc9ac3e36b2142fa6bb328e5ee5d08b85affed5efda34f121048c6acb05bc 0x141031f490f7f78c453f4314798abaa9376534bc51bcf3f34231dfe07ac2a711fa5220cd6276b2c470c800802f17c37f305774df999619e310bc318dadc3cca2285;
Dbl 0x11f8194bd6fbc4ba964a89d713ae284d16007f0b2631af81b5848fa4c2cdaac0466a5f4ce1427af5f49c0cd5b74ece4b6065264219f227163176618d764ac602ff3 0x116568de5a6d65e0129e7df1e8bbbbc3c30a7f83f2aa84b1fe3645f4fac4b182e8e5783ab0ca2aec50c43aede1006ea22356467a7f8714bf49e562dca8c74d967b 0x1efb5b6bfdfccf838bc57ed6f17fc06e27c5e62a1be546dbf379512a63794f5b0ba8ebd0a1308a115c4ba3964a554e82b4492c603b9bca359374add20144135862b 0x1c7a4f8b877f5bbeb0a3c54690a3ba596919225d14956c244e8714f48d674226af7f1363d0825ded218ce2c38ac99dccd4474c817df3191b94f3cba8ff3a349ca10 0x0 (-0x51238b5c2114c1603a57bc766cb783ac807d88eff4ad16b3dbdf105fdaac14364517ea13481f5e9b7893aa034396a0fba038240052f89a0978b1c91582d385e67f2) 0xa171e68bfeef3164fa58f5c820cdb24f3b190be9109528f9a7f6c8a5010df30f691d6c4a3a7f320d492f5045e313e419f3424350456805e772d84cb177154136e8 0xffdc4ada577370da2531ec7de8926ba38fe7bf86527df954b202c23c09a39152aa829f5f401c5e74786fe55e48b33d00270539fa4a7bf26900afdcc95e5444275a;
Dbl 0x2373b445a40faaa45d091c098a2b5f59084ef0b4fb186e4f63988ff80d7ba20522ebea7f9a5e21461ebe6f0fc3627d280134acc581d41c9311d4c5cfd3ac797d1a 0x144c9f92c2cffe3e94700b3d30a3e2f8abf79c87ca147bc85710a373cedaa9115a5fa5a5e2ae1f6e216690ece85ff15bef06747482121d9b3b2ffc8d06ebc782b0 0x15295ae44b014d2b1850101581736e183baf5d8eced01a32f68e5fb17a79efa4831cc9c8c299a3548d10f9cac74478a75fdf49e076973d09d5c180735372a2cb47b 0x1fd18c94b979d67a17e2e72b4b817d8cb1712e2fc289608e9a725a2812bea08718e85d294ce1c0b7e2f5daa00f8a07d46344fd205fd74f7240eb5664fa1db8613ca 0x1 0x42dff389c651868e47f2996e3bbfeece72b63ee0a95564d990d8b95accdb96e306699b5d25b2dbe451ba797290487a52eb2de1efaddca7fa29fb05512528cbde8c 0x2746bcb402fd8321154a3706572e748364bd00b83dc3038feb15ac1d1daa48866645b9615b212c1921030a8a0d0db86130f5574462a9ff63b23f687ba0aac4902 0x23403e13d71508ce5b9b4122a76f98d5312cbaf8123679a60fb6e4da393126ec39420d2547379013f8f19b763792de1c7ee9d4b91f237ddbc1c2aab98195a09622;
Sub 0x12f501a213ffde483bff2ab9dafab7e97a6b986f0ee2390d68f9aa811111f0879d6d47f4aaf7b7ddb3818dbeccbbdfa5a02e2eac4afe7ca0a4172454749c43f899 0x20510703427072f2e41260a27502dd57b93188f3ce4a2fc5148e93884f0860878973d815e5ef08d79f751be238a082606c5a0729ed572402a9777d1af7e80fe02c 0xc179539cf9c0968b66ee5e075b90d7dd9bcead511731876c66ab92c0c4540a175088aa3f9b733d5f9bcef07b4f9f0bc42da34cfad09c39b99879270aa2eceee01b 0x1f3fb988f805f8b4bb05daa9abba105a0f2c61393fbca4c0342820feb7fd24889d0ebcd8ffcbf169681f1750aafbf6efb82ac6d4a94baf99891b87f720f03b7a283 0x1 0x14dc7118c0bcbf954c6d1cc71ca804d44695b3806910f3c1335187ac46e6f5bd39fbe5a476abe3814f868732bc0bcf1b310d32bc0c08cb3589f367e0ed528e1c549 0x1 0xc5bb8705e7cd4e8c2fbfd7670f9dcac2be2e06550f676af106cdc858b04f45b61b4f0b4f6c20e08620eedf9e71c0b4cadf871a038766a6265420fcc4a85d57a2b 0xb3af5b758676e377ea4b8492d057e782a8be7d04d4d4aee990e70a14c31a0539be81483ef7eea7a853ff88d2f93b47eb4a2b39827fe137049fcf8a820d3e54d1 0x128319d9d01d89ce0ec63c5160b5bf977ef38273fe6bc463ceea42c138c02cf54fd98e986aa31ecc14a8accb5f5443ebf5288e882c23376ce7465e09d39ca38c4b;
Dbl 0x9a7ef9ac948e527ab035bf95ff3e31e541405f86dd5b174923581dfb1ef206ca95f0de38091941125fa731353572032c7b46bd400652097e3c71f95fda47010f38 0xda8b258fd4d203a49f0d6614e2c4272e76be4dd3f92339f7e6bf76ed998eabba164fbb40c9a409f3ac740397c0c56bcd842106237de9cb894dc855ae030a0347ef 0x400f65e99ef9b2dc6885b3a34244120fd9e35c8b5c6e63150e354334517928fd6ce35a07d8af49bf607a7f212e7ef876e12b18583d94fab140b92aeae78ffd7fa1 0x145c5e1736d9e6f4e4504fa8d923eb62942733b1fd526f5cd2dcf1c9ab579b4cd73241cd51c4afee3f301184a77db1692e83901066f6d58795baf276cf4de0c983c 0x1 0x6ea4699ba452575b704237cc6cfa51538fcb6716932043ebe9afb350b869de8d0bf299b24c41887b8f08ac540939b57bc3ad2edd360631e60363cb1366fb63e0dd 0x2e9e81af2e0f5254cf563ec5ee0ae315decc3596f16fe9675b28b0761bacacd0e3139f5a901ff37e9c99af3b976c9e4d8633e82f2505788211e194d220aacb6c07 0x624d4f5ebe84c295f57411019cd01e0e8cc76d9162b2ea0d17192558d3d1ba29585606afe6983efa06836106ee0078c80e04e9d276869f7ab9ea318399f1038e9c;
Dbl 0x1df265916ec475da913d196c7e879e95e7afa5d0bc97767a85891c391ea9c2b9c01cbcd16b19e5bde1aa832db68f509c8694a4edd2a34cc643b3d042777127fc88c 0x1a556d645a56f45593eb6bdaea494a86ca310dde2137326e8139177d3c1fd7fa4cbe08b92142dd19ec75c613003aeed7b7080238019fde64c8e8ba52942c8c785c0 0x1dc1011914748847977f46f062c791381150710b176ac31f0291dc8c49bee684524483de0a8bab317c12af20b792e5a9851431a1de71c42ff6afd1e83611a8ade73 0x135344f4a2f62be4b6056a8663e2f7ec1d3ad6ff1e5b0130fd32dff19d7912c154a6f2faeb5763854e517a267bd167e5213a0e2a363ebe53cbf3cb084c0413bc22e 0x1 (-0x9ff38323d13aaf28c3f5dbb3498b8bdb01bb67a786fff3cc45e68dc55ccf9a7bcb473da3024ce19b5ada22eb5a467207acc555f39e760aa9da54ae779c8afbd4b8) 0x1c06843912d011402cde9c2f26862ecea9e66067eaa45fe1c9b6952cba22a405181ff3335f34859fbc7b3892a4e468ce0c7381ca9cef62a960bfcb3332494cb090e 0x1215d98dd398f68a5a44fbfd13c46c024ba75c9cd12dccaf56f78f0e6de30e42806d4740be3ded66d46bc30d79317f334efadbe2247912c91a8d1ffcc7fbd543cec;
Dbl 0x16a38b660f3e7a355994e23d14da1cb7892a8e3c9acdaaf31a42200a84813c0f01c26fdec3281ce07b18a448410570827a9afc8ee8af1df8f2ce68d6819110f0c80 0xbaedb040dd2e7148ec37f39dd98a95c022846ecbd4991866fcd04aa1f4e3eca90c4dbf0c772519710aad84802a47e5762a407cd71699cc9ae0f93cf6351af87940 0xbfb68590d6e8e66f8568a20133ea768faf65adf05daa2bacb943099caa9c2739dec4818f1fe5944daf2082e969427c30e68950a5af8425816d6b560b482c95e767 0xea692604c840d410527eca10cb0a12ac808c6f163eda0e8116c12d31cd1992fbbf92cc859d08b82dbcaedcafd9670805463fa6a9036419b1ad9268330dadcf0c80 0x0 (-0x16e99e7cd9bbb7150efa944f4187ae083f2170eee9c0f21294a9bb130a65d6b4b9dd1afe0d080895b36deb90b2c3a4912478c8edc6b217874f71434716744100b03) 0x10042382d3f11e7655eaeebab2f319139794bf5ebefc7a0331ec028bb7948e6d41a385f8d368424ca13a2cad74d0d2fc0e5c0f820b440ddb2a3bb4bd72f34eb44c0 0xa5d64ee14e0185deea18e0d70deb190847aeebb452b4e40f91e32af6af9e4a3037c610210a3eb8ed80f612f9d094158521d849eea47aaa167c72d23c366f8485da;
Dbl 0x1690530275798b483a5d6ad2097a1ee3ad59e6b1f6af10a215143bf369d49c245907df52991ec51e5ade278ee7ac15820b310e46ca496735c449f7f692655777db5 0x1c3c2d2c76fb79ef9dffe6fc1ac6f0ae5fcea6e7e06210d0ca3c821a04b48a843882a7ea3f1c7347bd132dbd675eae5fe1560ef7ed9eaee00f9edfd4a3cc5a27689 0x13d5ccd7d27303d98a047c97d2fd84f9fac988a8729f95aa82d3ae1fee6f2e1b244c5e5f67f0f2464c9a81717323348f5176acf6995aaa915c59764042a788af9fa 0xf72add796d76d24f0c3983dc2d1b8ada259a004dce780b5a59082901a99b446584234068855de4f5397aa8a9b45cff7814df8d583caede99e70b3fabf8555602b6 0x1 0x419ee3c46e0e1c0e3ffd4e4f8f41f2d6af657329318afb6ecd05a2c840369bac6581cd551be1d4df1b40e409c1f28cb5e740bc302cc5d91da52e573baf7892e257 0xfe8fd0f4efd26ffbb486b95f06cbea4177e7ae2b7f0dcf0f4641a906642439ff1f6c936f0be88766151ea560e75af9a0c8ed1ba6a1aab0a404cfc0d9aaad932710 0xae483a524a2e9a7545b218216b52c6fdbdb97f8882857ff1e71a1e71b3653b3db973d30d285cc4137a42de905652fdfb6d3b73efa5d36054183eccf04d9f6418b3;
Dbl 0x18ed2b8c03ae87162b1680c50b6fb0dc1ff5f4514abd70a6e5977020846756197f57129bbb9954196d183d93b3b748d71b759f3caee63f6ecb2f573687692b37699 0xb1fafea87ec1f041916810b339947f62d9f5fabf4dfc2301f712e0664954c8c9d8bf1aad288cf56d87ee143f30f1694c08aeeedb3fbe356705815e62274db46d99 0x5e6383cd9beacccd35ceef8c4d517a0e6130623a5b3c547c9c7da5941c8741203cd69c29987b57da434ba1046b25d17e270c6812cab623414ed2093baf6d3a90b7 0x111c7d41ef0f5aeb84e965f0e72da8b8322f473beb824ea0aacb5413a01f3df79af6b63f6c93a3f0e4944c79744f97cb20cb200a39a2cb899f46c9ee81577ee08f0 0x0 (-0x2bd6887c41d40c20f793045a961e7e0fcff7e8e790747e1339a142b3d7dd4511ec504d80522cd38d9e987b61a30acde8bd64ea759243b35831739f82a93ad5984e4) 0x136a9f1f4abf02577b960573ea45225cd19aeec8ee7aa9d6994e389ccdc984dfe1dda966228b0a85e018422ce4fdc36941069b7247c71d687da9404207f4411f33a 0xd54303a4a8aa67fd95598b26bfe29ed11e8bb9f6125db0a1c6b54ce26ee5348d7d5d8829221c2613c32d2d490f54e8b99d321dd0a5dc543e7c0ae86a9460939341;
Dbl 0x12bf4665a6f24aa2be7ae220aea0ce8be89fec6e292d5feb6b04a4f5ac971c0369f745d1ae8bed3c90a40c80db30d4e4608edaff0264d473e05fba2e2b57e5c31d5 0x3a4da0e3b8b1425b37199c78ce50b0a6985334a496e923590135843f9a323ee39464e64a09967f1543a90ca08bf3077600034bdb780b5d0465ee4ee895cb29ea4f 0x11de1fb3edffde2a7299e135e69070e36c7c7e37282a9a3b737c864f2b38e8b23e9758e9204ee57c93d96b547455777fca480d07f7c1f9e163c1243890d58ccf8e6 0x77ad5dc4c610ade65a4e743a6b43cebc41a2c61ab712ffa8f5dd5c26af2289e6445a34631ef676584445079ea4fe61d608aba2ffc7b2d8629f930f7991828a834a 0x0 (-0x4b0337d148fd0ae2dd0816eeee5422167e6670ca77409b71c3f84f16070069f8610c59d35f1e6a7e2dc27dc5773d32682aedf6d9e54b6b2b8bbb44abeb4e27ee36) 0xafba68354277d9f54042ede336bcba18c8c32d06727ec46f0293588c66811b0da2f65ab604fbf620ef35f0d22e57c8ece0dcf0451e8da309f17cbe3f70dfc78a48 0x461cdecdc69378589d36fc170ee5b82c05cf075bc3e9011f24f322905e00e904c18386b9e92b169fe09219a333e695126f66079299a0bff6480cf286f70b0f230b;
Dbl 0x9459077f05f90623bbbbdf4e192bce10b031c05dbcb74bfe50557890a642295d5c38ffa389dbddcbd3a1a05e6b4d7d3e1f76ad92c4bf6cea5dbaac1a42bf117198 0x7299e224797dc4e239df6630830d940a8ad0b5d393e8bd4d16fd3ff6ac4792a1f8e36e0a1b0cc414d56cd192e9bcb6ebe2853201460ff93a19111ac87b0a084264 0x16067c2c31531f6315e4e657d839358cfac0087139ee77ac2988d42bece678586551cae90971bfd4ddb5070b8a1a1597bad69613d72642e16d7058be278521eab6 0x1c7b3bebf3f337d78fd3a36484b431c9c0d827ed10300660bea384448edeaac419b81783fee89bb006e3c3b0da236508a1d7e19da31fb63ca4cdd34201ac121a7ea 0x1 0x91bf2a85ad5036fb7ab3c8cc47b99f47f1e05bb085fd05720e6424f9473a3059f0578d3370740b0af1dbe2c3bf6888d9b7694f8d4e58344e35c7c513cddf98f000 0x2afb87d08ab923cd10bbbd8339821bc8893d678f1bf3723dd104ca14c9dede2eeb630a41aabf3e10339662078aed0e3ea8e17985967e1521bccacc1e9587c48cc2 0x8409328df405b243b575016e621b29165e1479211871cd5c22148b21a94cc0193c8ecdcddfd4d6b6957fc13a0d28b75312a8e5a39a7fc33ed606ab6a3a9a4ae6ac;
Dbl 0x1c2306e690fc33d060c99913cc7f3fc1ff4384890d439d93ce17663db4fd3fcc961b83de7910dc02abea4a9ff0e9500063f379daaa0072db93fcb5287cfeed3e018 0xc282438a444d3a0542a53dd5baf81c01948e0507208e760f7009e4953b9ec9c57b976c6f5d78fd590f1743892ae640317499d09ada9d5e6868863790b0c4667328 0x1c7082a80621e230bc65ea76118a7262406513fa0c887b995d586e17439495730b4bc0e2c24f68dd0aad5e04db7b216ad519b8c9a5e76cc682546e502d260ec883e 0x1b0179e9a35308adcf73a285ac8157808f642b0cc735a473da6f35b6170a8c8dc7d4c019abd93c6bbc6558e09bed676ba6deb61666b729ad1b08ae337ca45a1cf3b 0x1 (-0x26388de012fe0589aae34ca1e025bb9b88b5760ac865bea1d3ae6fb3f380602530fd64f9631310156990628cbf02f845c34461af1b5a1b26566ff4c8678ab75cf3) 0x18bd726a979376034ef112a0397e398575f38bcb698d1377a17cb4d71ccbdb0ac37245c62a127677d6ec79a764f201773ee6dbdb523d0afe4e17940c6cf0cbcf5b0 0x17beda1ca246d444ae7e3cee5873c198496b253a6e4f7be29e33e3bdee604b6fe651a8394995cbdad63d81db2beda3740e2eb361635f15569660ca7085a21ee656c;
Dbl 0xc7166a88c2deed3ce0a29df888d5889a38d9748e5f7c150897bae6ca1a13e7d3ee6a78dddd0462004afbdbf5c101dc66ccf7e450c7ef8a9515cb80d6da982c6afb 0xaae2e686f7dfc424e5499513d67ab72b0297d4b3694513b36ef8f2f3f98f5056a11f3bfc221dc367dfdb4e5f53cd90aa36e996ed288b72d92a19f7c6468e446841 0x1b0154afd40347684c1af457009ed4189496b6305d56829d92239686753525061df3633f56be7556b693623275c9e039f3dfafdcd5570584970a9d49082fcebba1a 0x179f5d034c6d75e05d5ba8c1e47d64d691f63053b749625c0110f1a1420f796eda7830733b5b39f12f3bf529d718af873db039adb211eb8f3e6c3fca6a36220ae7 0x0 0x8430a82094f7e86f22a83812e76933aa1fddd4e493a7e35a4901b12a3115ea13293b0284655da1cbe9adb22f2ac0a8de23c66e45d4b1649f3f31657b8141106129 0x4d69edcb8d66cecad4ae44f8bc798029a5956f41a4523d143e8cf7a6ef3b43746f224e193f376501cfd4e8a1d0a4b6c3c21162a668dd811fa65070496d14147c78 0x92f796a14ece3016363a9bfd77ab8a07313800367b691afb600cd755276b92dda73e8436860dd3b4b0d6e7a345925ca3274fe81c962a65c195b5e3bbf2a3febdb;
Sub 0x1402de3cf8b74a4ed9ca7a278ed2da3c7fb3e308e17c453b131d0800e5313716d30964059a05fc3d7d46bc55ec245c6baa97b9b2a0f31640aca9d5aa13c3db5eb5c 0x1777002a48eafdc5e6a458c31afcedd577cf685a74d1d576c8baccf3079dc9de3cb5f210c39b1c5ea7cf74e00378830050f1d44a0512b60e3edea23702d9b7855c2 0x4bf7bb2d5eef5e3eb54b6d8a3da90b0f3f94bb52b306cd8d6c9e62daca8f3bdb8a39e91c4321de9c9d412adbb31fab095e65c77df8dcc8d3bf161d63500c188823 0x13372e3e2692fe7c67b0408e226abd9d385a14f0c1c27bc46e34c23c37fb2b272d5c01aefe86bfd7d62e4005f1c4560a527cc524cd76011f53c2fd45618f2cc127e 0x1 0x1e45d588040dbbf3b17ab564870572176bffb7032303fd3fe4d00ca4499240318e67df09daa2ddc0eb6dd309e2c2a910158b64e39670608968e20794814cb5eaada 0x1 0x12ee5c1082a36e02472091b548c3df8fa6bc6a2281f4a7735cd1f23bc5737b62b509c36a9a8eed895ced1cc410b98f5e19eb06e3bf717f4c2075061a913e1bf9c13 0xc83960e05f2a2e73d92212b8fd32ffa5671f298170355cf54acf68ed8168a0183f596378cc85cccbe4cacf127c2b7b9fb91529307ce34a081fdab976156c287259 0xc0435cd299ddef2d448e0cef5c3f8873320e97b8c2870e418a1d394b8e0441755b53996cc02dd392540d7d7c81b1ea51efee25d523590d6cf4cd5a3dc1599df2f5;
Dbl 0xaf4165f5884e38868ed33be3dd55357f82d5ef7744f1e9161b6571ff932b14fcd2b74d22d6cbdf014735a6458f88dbb31cafb37007500f56f02cc54efd4f5bf7e9 0xb20245b2c6d7bcabf515efd79e9323ae98881177fd3c66294273ff9c0ae5d6d56445a0b63ae66c86b98f7f81ae44f19550d38cf4b66b648eaf00b1e262161d9db3 0x1662e80b6a4951cfe50dacc74620517f95fe9e43a5fd47b61665bc34272f518aadca0ef8362eb8d37dc89dbf013d9ff15f1e01e5b8a2e54fa5756dbc6502b110841 0xc56dbcf1c7d81fb2752f9c5a113bb9a8e46e742f4fe0f1434938cf946ef6c70e67198055fecb5963c367ce7e89433e6fbe49b7ab9abffc553ee9718dcb855ab80f 0x0 (-0x305e444047b43fd799cff945d103e2ac91fe60bbd1cdbde9436a81d0c43978c4b0585f0fb18fef373caba77f5f273fada270aa2cf3ce07b21551c66e1d9726e24ad) 0x3bfd3d0d4fd2e906493f72adbb0ef8629cfd611bc4e19f31eb627f70e0c5d1e79abec75a73aa92c5886d2f112e59920fb8e2294761c053dde530eae0274f54d726 0x439439d3f3d82917adc22832b5222754c4bb014801aa02abe83190ede28e600a59f238bfb2e17b39d75467b07c6eda1251fbd59a86c2148b318908deda41ac91bd;
Dbl 0x1de6c296479b15182106522d21d0b4166062ba76da17c43a18ffa3b7fa9cefff81d46e8bb9baec40c02982a3045f43ad9626458cb8a4f14e897ac43bdff601a76a7 0x1e9dd49fb028fc0307f6a654c8fe931ac6bcc4ff5d540bffa74eeb7374403a0cff290502afa38c5486a73714b665ce7164dec42ecc2b42401b5a37e854544088c01 0xa180de969ad7a7569bd7e0a644a6989077441b5423d6bee7515665894755dac992dd80e90d51c1ba247f7249a359d7d0fce478e875d7dc664596d0c09174fe5dd7 0xc824fbb7c447fc7b75ab8a8b0ea9f2022cbbc18227fba62ecd854864c6e2360571b5508b40ada73e4f1c0e3647e80a7f02e74a07f3b7408cf95d335d1cd21511b1 0x1 0x1e3b76c72b1f9ff1c08fecaec8379c842b70e21ceb97ed90dc9c9248c31760eb4f162923a0a554dfebede63e35691fe03f8d5c5f2eaf5183f8af35b154b4e1070aa 0x1bf0c0c2314f5183449b9fa0cfe9b7132f355f69cdd95e81535d67f55e74931706c424f2b8e568beeb20b4abf204759b681326c9c166ebb861f7579779ddf596676 0xbb04cefbe5f60b254336b69a70f4373dab6e2bd79734c1fac51ebbed4c64180b679e9bd97d4cb22ccb17bfe69b5a2ab3ee10e8a60464f0bd3cd22af729b22f45a1;
Add 0x19e45b41b71de1adc6129c9497b19274386a3ec6e90d84534f4a25fd656b2f764db68579a93524fa115c3198534672be7cbdba766f13be3ee76ecebe120d5beec33 0x119522e2be8a5c2d334daa9b3a9599636fc5401928caccc030fe724236dabbf58d47911d1cee7d0d1d0c589177a47b17e9ad99a6f3d4f11457dc49876ab57f01305 0xfdf558b47a02f92cbbd2f77c4dcd9d59669aa9d70abd5530bdbdf423d783656573ff3687a7f558b2e398c889ed9a18800b4b5ff3e5d03bd56fc034862dcdcaa48e 0xd08b1bcf19e9fd5d4a8fbb98e68f9b756f784e634893f3f765079313d657e1771e173e592b50f47699ade833ec153597b312a87d856512bc37dee60e99ec1878fc 0x0 0x12357bbf44b8bbb46b1cc268129c59bf8292feb749c3b804552f68e87e398539237ef04cc8248ddef4175538a3eb9e76d6fb8fa39012eb9bf19aa0007138122ce9b 0x0 0xebbb9ac9d381b602c7a16d47ba25ad9a4fadaa5ac184138a70f451567c7560f3718abee3333ec5ab17b41a4000427c6114b8c71725ec01b97b6665ec0fb6bceaa6 0x14f32c2c1ace62dd6692a778c4a393564420ca5cd13b5aa0a2a7e0613e88c617d872600370bb9c4eb77a5082acad119cdaab8d94a2576a1cad7f68f83f20b3c4a43 0xa8bcdf97cadb23544d0da5c458c4552db49456d1f5751cb902461057780025e9acb3c42c3642a339f5af0bc254a0c244d80cc6d34cc62cf04c8d54461b33589831;
Dbl 0x11690194f1fe3902d3df8000b8b82f786ca503abe6431934e9a537e08e08f863a1ad8215ed6dd60de262622ef0f736a35fd9bf6a4263d937593f26ac6b4328ac94b 0x1a12a82ac931274b15d0a9df1945e2320e99780484f9633d13c2a2cb10dfa92d96ca03bf5c195d650503574ef1935abe16ab945e2d10f3c1d275789601da74e22ea 0x19040bddb928170236c49034f3184ceb6d2aac53ef9633906fc1a6b55b68babface86b00a20d21459325c37f27377dc56cb9bafcafc3a65700b26ff7bc173a43c5e 0x17827ab7f55934e21d7d00bc214fb731612bc814a3d169831d3bcf7725fb12c7f67d8d5dc0d51fa81809014286112059d3020548c6c3fd528566d0f168db0a1f01a 0x1 (-0xbb60e42babc2cd5af50200f1dcd580ed5e3d56d578478c2c71f3dcc9942a06a650dce2eea1234675961b953301b17d103662bedb6dfaed008ec7256a3279de2cec) 0x978ea40a2a6354e9cd088829e2c0486bcf5b9b04dc18b7415e045d31449d62b7679ee076a1eab9796ebf685110b609073df263c25c04d7717a9618b61d680b6cfb 0xcca767de70b35112e3200a2301de0f2e4ecb3a9689a8b782a4601e3f0ef695068162e4004e50eec937ac2de23e51aa38196700ed6f384670ccd5dd6044da751f4e;
Dbl 0x26064ff4280859962915bbe7879fbf83a7015b679a59bf9acef37e0866b5aa48a664fa591157dc3372d6909f7f759742104013bfc057ca3178c725ac688473bf27 0xfc8812eee4de2b0ba4005eef0f174aa1727438ed894d8611e7165bc7e1946de4814ae44bebce880daf72e201211bde8fea44596fc8bf50879772a5339e8d2cd86f 0x14ddd50ade980dcd3f33fdb3a6b65bafb6201f003ef901841fe5372b67f246e35228e96fab143f21a417636b3c89fff592b0f0de6051b82d6f51923eb681af8a073 0xa4a26fbdae3449a5b90a3f028546d87f7723475ac648adbf5513d0e92c6624f4eb5557a9d5c74e42a0c292edf819cd518074ec73084feb958fe4e42c7f1a214a7b 0x0 (-0x3c03dcc7345e9a0f638de7744f62187d63d65152fce5fa3d57233c873dd6d0ac2c9df67ae1e6e9ca745f7af70d63af2cb1e8bf792e16080e00efc41a86fb481aefb) 0x2d2eff22a267a47225a3855f60bfe1049050e5cf0e830fe2875a55057792ef9d4cb92a53c91fcf377eef0648d2722ded7990b5a0e6e4dc60ad302aab45803e652 0xc3a15e7f5ad50ed55c11bc7762188b2becc30e96cab8dc3913fd41b03e1d9c2f7ae229a88135ad3f566c2fe8cdb975b3745b8f3f14b94134e4143fdf9dbb7bf14;
Sub 0x501a3237340467ff6751c531f2cb1764c526dd41ebed50a8bf06bd677b9a54a21d576d8c311051fc02f58bdd3bc22d9822e4b718ff5f7fb232d752206e7ebea3a6 0x15574049508dc05fbb31d484534539295c44a155b4d5389873e19c21a8901c36640cc768aa9cc0c9738282ac3724a2d7826cccca6029ef0993c3ee5876be27e308f 0x154d35bfa34ead5e14ea460ec57df6efbd33111c1b432e0536bd27e9b92f63e72a485ef07a5415ea7d27855f2f4dce674f738187183cbfe27e281edb1ff78bdc356 0x1a7140e59dc02250ff0e316a9dac3b80bae2a23923bf9fc8aa8fc99ad5892aa7e407e6dc142027b76774ab73daed1b117c3778cc9c6205fee5b33bfac32aaaea7df 0x1 0x360284e82dda2621d6622023a8f3b4ed2fd7d46c5048465cc51e3318812920a6c6a998ed73dea0b48674c43ff978dee70c1110bc0739e644fb7926b56cca471b09 0x0 0x873283118b115f1853c2af33eb157516d2913223ddce7ab6d7a861f5ba0807954da97ed073570503f2d91f318ecd0c58b0874870189432db63526b895cbc9c3ee 0xc8831085ec9770eeec52b2464213a6551c8e502b2c1d82e7b79f11c71b03140affb5d50ffd46f9d97538c778249fda7d028a506004f2366352d32df85778bf6c0 0x4230c7c157fa80968918849c7f124ee4a70bc5a02eb03b6e1f459dd19b20cad261648bf899b7879b3a3aee5a89325d342463f3449e527319270a110bcd58108c2f;
Dbl 0xf674f1723e0ce4edc00ebc2a329ba8bd199f9cc5e88e7f3988fa4ddf15ab3d03c613c08bb49d19cef580fef7261985a45be81a436df6e1442560faf19459397f69 0xfe033c5afc538ae48002c38e74ab5fd081b9cd7e62b4c9b1b825744718ceba09c4bb6eb94e0c901f67e2c9ead93e30577f356f352095ec20defaa5cf6a1bae5560 0x3161e12580fcf27133fe791ed03e6db296c33f86c836fe81cecef1f7d1a6845f935362e8e4a7e9909018196743a91141f90f2169e151ad4df7550e40d9b752a294 0x5770c83a0c887b17331a84b6bfa832c5429047dcea9ebfd585f44dd37033095c7c1107d15bbf7c77d04560d8990bfd20a7975d70e20904785d443fb801c6cfdb2f 0x0 (-0x16306a1929a93456c7e6b0e1753290838105014c08bc6cb49ffd5e96adbb40e7850cdcf3d650f153839d1b0fa7072dacc279cd4557eff88bd132fb39ab125d7c0ec) 0x76a27ab9a140a7bbff1012efeb78c6d3fefb0e2749b06fee7cee7a15a372d53332789acd5c8ff69aa6cd6167893d17d3224a2fe457be4aad2c53e4d358e27f5d6d 0x2a1728fd5a212ddf9daf4f5a5e49625c9f95891d0eb1ee67590a0b3c095cdf793d7b262788e21c7177e9217affcb10adb80e88c3966bb5296b5ca51ad6629c2ea3;
Dbl 0x2a5cc588edf43c3cbde3a373c4feb81d38a7ac99e17dc93e370ea2ad57a3322358f1e9d46c4f8b602366661a4bade6fd3858014835ffde6c0f3c61690a1d963c80 0x309b27b11bb7a6ef6885e3a29dac86730919c8dca818c2228d5615f9de4f1e23c729454a323b90d0dd622ef3e9ec564dc183fe52ab9a80c7b4c43cf18bf982856d 0x15a8cfa7828a8720abe89f3d91925ea0401298f22fc155fa448948c64f014b72c8b799b255954985d65c0756e301b75c3ced4cb4b959a6df00c28592331e6895f05 0xcd6814a9e09be3f5177cdfebd6fed95d78a004a1ba9c078f2acf5e4d3a7f9be5fd92296f1bd0ff4e8a809af6ef51da09bdb170e274fb6b592a3668ddde222bcff3 0x0 (-0x171e3ad7ebacfa712813c8eac466f2aed7d153d1987598e0807c6e940e5e7f9a81c36500f7ffc60ce922e49451ae346757739c6408ccef300007dc20032db5d4803) 0x3814937c075996367ad654a766a80d7ba9a241ceb9f0f9ff870b8795345c8271c9494ca1cd49abe7358cb8e35493d2d180cda6c611b0fcd914fbf74803c92f02d 0x10fec1a52102a916c1cf97d57eb693762f8905b82af33f45b44118277b81026196677417ceb7dc9f4c7edf98b7e594c48267f33679e457504e7ddd9e3fe3d51419;
Dbl 0x4d66a00fc8b09453ff4792ed017182bb0d1356da7deb6f94f319f37187a71eca0f15a73438f02ef2fb72c5e135cbdef24042e79c0aef1be0d1d9411acf8c88e9ec 0x14a90951d293a21c905908f2cfedf33f65f14b240f355c89900db05e3960c8c4b3bba53a2f43203e459f96143f356602af2afae2e64b27b86c126dc29ab7b30d22d 0x10719e0049f6a0880d9259b6274a2b47d4734ff83deb79c3638d5952e0d6e95202e94bd125fdb356e854b0b26edbe5f59d372d20381dc04ef5a7c8ac89f5f0eb640 0xe60a9293f27d852662f554759ecd527caa05169bb4c2f9898c7b1016484291d88b6ef1a73e098cec8368cdaff695f622ced4502446e80540f39d60c7e07e51b33f 0x1 0x5aef80ce29100150c7cf1fd5c4e28e26df07d95fd5d19a1e0488dbc0f1802c494cd864593297b6d4aa5732f30d7176c264aad2249534e045a8381e3fc7ed2d0600 0xbb372b6b7b0f0e34af79ef6490b7db1b150c12ac5df5175c39eea148d55c9888cd3e7a44d8b480a0cd650c2d554e11142743136ce5a55d7e96b69c807edb66b77 0x22c6b310d8ba2e2d9a2d58587335f9bdeb9acdbf3b85eaa17f795f665fab12f6d28f657eda4fc3ad9d2f4fb0aafa22192fe347560a972f86632b253685c8aa8031;
Dbl 0xf0592e4c0be6c6bc83098b3de4362b7433e2c07de79f6ccdd7fea6efb209911b276b4fddd8d4f2f80ca15c262225202f0ba07213e97a7379e885d53dbb55085e91 0x99fe1e0806e512b519d4f21b5654bd83c40a11525cea6bf7219515100a3fa36066a21aedcc9509d9f5410d4dd5371d9f843ed82838b45c329e3c44b238a761d5df 0x15281952d8716f59dd8fe221af936642811057f7c62081242cf602bdade864bfdf579f8b3b4bf1b8371a52c85023aa8578eeb2d9d0d2434eb186f1479dcc6505af 0xb092771522550f13ebbb9d11a88a76729b0aa0ee966b5ca1df45f0d38bcce8ead51838b5279cfa0a64b853f61e1f428b6e70d6062bfe1f5422ea977772d3cefc4e 0x0 (-0x18941b18ae3b35cbf1b2213b5cb68e787dda7eb1c3ed15f9e3afae893311fdc72991fbfd583c75aed585e5764f1ace4243096804e4683990664e6f9559c2e37e0c8) 0x70d3aaefe7c832fad2e232ed0074cb4408954509d7aac76bba44613cfc32931a9b737ed8fcc84b5479e5a375f929311987ad9e3db87783c5852f2934a747c4ac18 0x52e3693efdcfa5f74c325d023cbf7723b576e4be1490113e668db19f5202c80f0bb9a08ef22493664954b9b08521f3a52c0751794e3a1a3e672cb403356a222fc1;
Dbl 0x3a9499da28b197838ccc94568781a6cca2fe5654d6988cd5041ef97d06b05fa8c3efeb49c26c6449fc07fcfa52c3a7fb2caf1ef021575b91748da00618b35b686 0x611fe645f130755220cbf0a4d84401b510c2dab6b09e0f50da7734017cfdcfb475b93e895f4d752cd0f96533a8c90354980a821078d8229b970c47a21ca3268757 0xd808a8e08fea766de7c446e209006cd52c4de5ddfc3a31add48a1e0659bfe50cbaa48540c2f4bf59060b112de7a7cfe74cf9938564de14fd262e9979a81911c87f 0x38de37c215b49d62f90901767e10bbceb347369bac4c5ca6471de10e8d41d3abf0e8dc646d4794ad2447a81a2c6e1a4aec345617bfdc3997072ffd101c043b4e88 0x0 (-0x8aa5245da710d392e58c98b26b59d58ab76bb6d0acf2287ac7b6d907093197c6d9ec3954bb82814bffda29dfcb5dd7604e0f5ad8a33ba1af48c7f09479db4c3e74) 0x6b3d5fc8d93024633f86253846249e4203b4a0cbf914e4b6979616ab21028404ff311940b7482ec5e7edfca3235c5e955ccdd31447b156e7e315587584b64f1 0x681ada3bd5c0f2b01fc3362aa5d1e52a48f5bc07dcf7c7c37dd15605f12363149d8998fd8bf186fec509b1003cea6128a540565a3c1d1166673e92266a6f02fe;
Dbl 0xff0dff30c44104b16e781827191a26de6e12bd95bd08d5f29daf812bf172c4e4e981159d84b8e450705d4d6069a13a3fbba1a9e49cd14ee365f3182a162590d0f6 0x53027b804ea504194a459e8ce8a405d862a369ef68fca21c7a492af454e602d6ef5abb1541333215c9a0c49665e863ab59a4a4799b7f97521ba7ac96fe780c2d59 0x795cd1180a793ef876613df19bdd10b14841bdb060bf57334596de6bade151e43d70e98454358ea294201c2c2875ddc15de79255679126dc3257634789b99aebb5 0xe1d6ac5a28b7138d6865217ef9ffbdcae1f70c747a16d34602e090d2817ccdd865e83741e1a43170758a09d42e09fa93e65dd96dd588b497b649b0b1e2b1a59fe 0x0 0x9ff6a74a2af15f14410dfa3a4ce5817b5ea57f85f16f6b0874d886660c292feec17da56ac37e1407b9f0434baa5fb1dc1d1035271dc254d0ed0230f5f06546ea9c 0x7f0e71938827d31bd523aa500c3cce9434f3868424f36da6883f46410b6d6d5c2fd9f601dcdefeab56fe0d84e8a693ee0c4ac70705c0b825158f240a9ce3088fa3 0x7080975a3519226b41cde9b5f0a3ada4c229f5236c0733c0d51f6595686d66355d3e1bcea8f3b0d6a4614ac2a9723a79f8bf2199617424a71b1ed1986a95bda20;
Dbl 0x180662b600c563d102a196f8a3f8783e4f8a1ce1aaf85ddc32d7a1e2dea7e169c1a9fa7955d7ea5761a7255923aa3a8b8f14d740ba42a6a84f55b1aad97799583e7 0x18f7da075caefc7cf17de536ebeb7e8abbfc9b70cbcdd449a9f8d80bd8d736ef54e2a3e803de6c984b5f34125840cc9ce21eaf775cbdb02a38385db13591497d449 0x16edc4a3105ef7e38a6a4088586054df094de7df01deb6b6e279c8d94590b5b04715605e460d0b1cf5dd47b3241b15064a33633f2e1c050b5898e150e8032b35edd 0xc384db0a83b53c4a32674b1e29ec1d2ca2d9b2e2ac1f5d81dabbaa36c77293e1a1307c95034c689113ad8370e1db99dd37b9ad03cfa494ae9821d183a56374590f 0x1 0x8ddbbf0674318ecb914125823df9bed234701533e134e30074caa7215f7f7c9131d1a9581e4ef278f289cf70293c0c0735fd1dbb478eca417d9b53d9ec2b9e9c2a 0x1209955735e72fa0bb07ba3f72c5652aa40337a4d08e871ca7f1eeaca34b4bddacfdf9e854735ebfcda03b154b6639d085f9a2b5c6f81c5857b13e1c2d0d7d3f48a 0x92caa84fdbe4aa1f9d4ea07c70fde10ffc491fa8a1b3b23b27ad5bd9040d1fd1996b37cae2d4d1857f60d306facac0001bb18d9604ff419f64b5725e3fb8044109;
Dbl 0x6ffbdff89370b95d24bd18fc1e640b6a6fa903349404b6c67bd9ff09926b5932452ff61c865ef6148384edc1937eea073f6c08c0c142a3806a406917387e33ada6 0xf4c4db246525c9221b94cbbfd39898cec1603fb5b301e6412dc41c9b1585366eb2e8a2a70ab16a450bacc9b8d8e279b50b35e99d85f44acf7f8efb61580a941c5e 0x32f36cc4649036c16e88cb9b82684be91ad75143aeabd2756a15d3ab688372bb36c74b0172bd769e8a9593d41135df0975beeca8343767c3987ec9164cceb49e05 0x9ab8c55165c9feacfc4987aeeb1f4fdcfe69775709db5e5971c9642277ee38869b419bd933355f3faa46776cab2a501916b50dd845e6b7d403f6dfb2010a03b7eb 0x0 (-0x306a2cca1cc56567d50c5178eb744ddaa17ed8324f5582bc3accbec5c6172b297c3559d54d23fd2b1999976d42b8624090b891ce83c5d783888a9cc8264f46ec22c) 0x187e3205429ff10352620bbaf847885324c66ab53128ab59c270c2eda730514f36d3ad8caf2ce80b6e06c5c77fbf6ae511219be9bc72edb8b26a7ed20c25d5fd4c 0x21d72c0a78f755959440f8a2ed80cad291257fbc066623a5f818c0b885715dc6e120f514d7550e3350e5067ed26f659428def44e2ee0f64f9e1da9d8b0b1e3eb80;
Dbl 0x74eb1b6daeece0da9dc851ddf0c5e49ef9754f36e9c39c02b8b6000eccbf641dc411d4da567fd6e155ffe945745227655990ee42b68e963bb7c1ee3f77d9d6a802 0x7d0651a1237b81f399d5fb5fcd2d4d1fbcb1968bf1c4a4f9bbfd8faca9a2f02809391c1247eaf7a0b266ec49dc655a3f6ba227121938ea51d73a7ca193293a1993 0x92f4215952fc1288f1d901fd3025dd2475fc5859ee944e597fc7d93c1d7929bf36496e0a5421b61e29a5f528edc1923edaaa1ed0f0dc3cb8b5e97f895bae6f1316 0x77be898341aa472e81bed060066b4baf04aea929c13d414771c68cee6be24646a9af8694c2c672a45945dd6efc7d1f759f93c28b6cbb607da8547ebfc4e15a02cb 0x0 (-0x147c6ad792b6b04be2e2ff089c1781469c78ec8602b4f4921de251c279a326da21954edf5a2743c332e2f273adcf40381f239249f764bde5cc78ffa636a7d16f08b) 0x1ab2f463626b1247aa83d6214a4a38dd716f4ca84f72cd218d3e05a065e28da70399e93b76e145c7b394488567860ee8590183e32edbc7e8330b1c999688c7b24b 0x1b5827860dd91155a5c0c691aa8791a2a2730ffa2949b67ea47352f12aaf4d1bc9654f09720ed05fc9287411215428f8dae8bae76a4e1d3927d496fd423fe87385;
Dbl 0x1abfde2ab3795c3968370bea19ef5d87dc410c6cc3dbc479ef7d004d6cacc8852c2991e079319a94ac1ce96f910144c092612c71580a5d17263877e6e1c36903488 0x3b00a9f8ff141641fce85d30a7e634154d34697242aaba0a290bda38679a82e7411ab40aef1fb9688a2c5fd48d695fb66b678f4c1d8282584eab3e8f7b769b86b7 0xbea076dc0b918f029aeccf99978a2234bdca965d2d6b49301e1103237356107b4d6423fcebdf43449c1fafb37ef9d7b345a68b4c77082c4c9aacef911e0d093402 0x4205a7a824676bb19ced9e2f2547190a6f7d2d19af19eaef92f1b57442086d40c81e680758cb3e38283a8c754efbfa89003a97c5fbb667f9888f3e1217b29e92dc 0x0 0x9a182f33d1c38c9ff9f6bfbb0601e4a9f4b2b3bcd1f143351bc5cf785b1c6c54d54161321ea4d9c981dd6fd650d70dcafde472231ae57b55b3cb6a6c7ed6f8e7d8 0x165c476f87d461c9236ba52cb4607394ca5e4d306b9d6064fd5d58c9f905a9b69a700ae7f401fcb64c1dcaade9dc2823264d1a2bc25e7472b7212064d7d4548319d 0x37307458a601df8591056d6f6404bc150718abb748edf8ebd2b259ad914da1a910e535ce3468467517273a96362997f09c6987021c93b49706bc0c295d9da59238;
Add 0x121883d9f01a24bfaa99a9be7a93b4d7c5e93983840c011484fed344cadefb3661047c64ff9309ea6a4387ebe00ab533fe56e74a85c0e3e4f0bba7cbcfc339dc6a9 0xab41865a9dfb6e5e05a46b6f68c885c7bf6fe1f9b95091ca7a976cfe910d23f32658b2a6cb94939450f9777edb6e8fc93b62245a31c1f864daed2374e3b77454a1 0x3d5e435067310e09563a9e6c97bcaad822ed7c477313bc3f2374f22c0b2d20956ef57c132fe65af132f633d169f96b206d0485281676614de71264666905a6500c 0x18fbf239e6118a7e3f743f1c13f1dae4d8dc48778895a283fae746d39d68d5ef41ac20164238b25d43932e855b1facfed30056af1ebc089f373be1b1a97bf273215 0x1 0x1747b1bf2481011582f4a1e6541c29e610a9804f109a57a550713b189072f35a9867968ac772fd20f612e421365c6600d8d3446985bfd1815b2b1c01149b3b5c950 0x1 0xd2a29ace0648112a6210df83a05087d61a893ac47af4ebed3cc5a5e77dc47c5f89b071c05143b6a83b9ebaa80523a13ee5cbba14ece2b32063ec7d39a9ca7207e2 0xa3ba71d144bbaac3868ae4faa1da3b0a833cd1485828d42dfd404a502656be5af4e3be344692ee445235d273ca763322b7deac19842906f5742558ef745581bd2d 0xe20dc27cc6c0b9efa58cfe6afdf09c4483e2ff67584c677fd4f7da7880bee794dd1dd3fc6af1ca6b2dde868b8fca3b7227c89a3c9e9183101d473048d1ab323631;
Dbl 0x1b6d7035ed39b06c81ef300e8074665fb7858e17aedda6d7fced2593f6fe8327feaefe54721352e3d0608f62f04a792ae5dbd103bb4e760b196949048daa4077370 0xf36fd8026b474b529bfbca4326c190fe3fb63c700ae9e141a9718290a5668af9ebb348fb906e23823a54d2169eaf2ff635f7d9febf2d01834cd394b2b795070fa1 0x185c7495923151c42621b103ec869b91b1a147eac3537261c9863288c5d59d185050fdab0006e5926ea444cbe7d0de60a39190a5e122609703d7ad99f3a7fec0b96 0x1b7d1ae5832b4230b69a8a12c4206f4c97fb9a589ae66b088d125ea6deba698f93aa569ab3b26701216a4a5683cbf5fd3056a4a5b7294f6e18e198ec22c226d44ff 0x1 (-0x42a6153ee82a8ec10fbbb538881cdd4d57add1798a28016ab7c2af6c54fc41b5a972fee2167349ce969ce3e8fb4938a2dcb92d41fd7cb8109cfb25e6ed2a72aac0) 0x178223a0f92b4a2d7f27b0d028251a1b7115e09bcd268f7955795e9fad29028aa1354a90921fa899b3bd37afb09a7f94b25a867691e9e3948e75922759fffc1e7e3 0x178f9139759340043d616e16fe356ca2d4f82117288bdd2fac051bfed255eb0a7fb74ebb6c53d16c75ba438ee490f778820b5d2c8eafd900a2a6067d48720cc9f12;
Dbl 0x27ce1c83778d25820acef8d094c1eb40b888f6f7066abad27cd1e0ab3d3459ba6e843319f8aa8a61cee255ac25d429ea089d8a3066b33526b7b768589c553b35c4 0xac4dc14f31ffe41f6676b1d01d35deb9e8e0e956bb89041a0d4d2a7f9553b5e2e3a5cd0bdcc6f681ab4a0869d5bd5d71812b81f37e20e3dbd95f7a8edd1d67a9cd 0x35ee0225566c65a1aaecf02dbc7cbf758633efb2cae61e7ad3b1ed488464b8a9a1d2622430b0c713e7f63fe1eb35ce59c0ff40cff7efb0a6f26cb23a8542e5aa53 0x472216b33947673335851873098bb24456d553194f60dd279c2458111012d517080d7befb3a72d008f0ac9acc8f1d284b4cc580b410c1da773741a23da779f65d4 0x0 (-0x11ea11976def06b1ab67dd360f9f0858b111dec5351e510decfa0aa4185ed393c46b5eae8d5a16de5e4509cd45207ce011eeb3a347e068fcddd7260a226c01b0ff0) 0x3183950fa9737203788e886c806f822e67ace1bd6539d8b70b26123d36011cbffa13bdd5bfbf4b690250c2147271705f097be0f11119613306de34e064bd30aff 0x587bb67ea0ba073eb8f61f6b8c55fd711a39fea4f1818e35e4892771c9299f5ae81cc08ef344500bed8a814a5d38315f2943f472fc8bacc7c32c7bffc50d6db99;
Add 0x1332fa74cd816a78e29a6d361fcba361a7b6ddf174aa9d3d5b9bd608a74f79d8ec806342d3f26ed3bc7dcb7ddeaca6bc1d799ab9525c94b32011bf13af08a36b41a 0x19a6e026bd827ed5af2a47e03b5096439bb32a37f8612014aacbc565fd5e2a57e5decd1ee149fda3550314bba6c7d6e104f991361a4b167749d1fd33595921c0533 0x9b9c1e2de8afcea5eee5d1d9017901cad07a785d9b0ee747b7af8f19ed1758ed5e56c093c068298697e34bec625a16f8a0634c912b21ab49224ccb4df4a355fd93 0x111dfbee359d7f6c473d233cc682c7a802dae45d7357702cf6090d41fbf71106485b8fb1dc8271c4c5b18bcaf693fef6131926e91d96f7c673c3fa759478b4ba499 0x1 0x1e5c833487afbdf3598d87304b7124905a64484d58283c464eb5501d034e868a5290481ad64d70f28824beaa8ae1a5dc8a2f8393fbc9b79993d65fc10ab5a81ec66 0x1 0x12374c15c605d058b800726ec8afd7dabf4988bc5bbe739257d3559f5764895d6af6c472749db464d6f69cd5349e32965e78b832e3b08b590cdd24f9c8d3e2689a7 0xb84daa1094e9839788474ee012ae1d5bfaef322af6406d2fa8e6b0d64c63d783cbaa7f08b1fb97e0ce2cf39d526b6cc369efbba0e4c6145d3da90bc407f0bcd9c2 0xa451267cedcdbe1cdd4b996fa1a9470e7c8cae9163cc8eb069307af17f44a4f9084ee3fbc3ad39f7d5c30b562d25a86fbabd01bbea2aafe7fa604c07255e8b5c5c;
Dbl 0x15a5c02da43213f5a5d75f3f7f27870e7937212d7bbb60731e49dbd5e685a6273c38b930115fc7ba31e68cb6e4ff787e16b932e825cda90b1512c1f0aa13e88b722 0x12e623e59bb9e8e152d4a498762159bcd2ed33b01eb39022f38b223dfc564b5177d23f7b63250776902821d30594e1ad47eccf4386c5efa2984a6089dd6814d2a01 0x15bbe70874b756f54812f17727cc175e9e57ac1bba6c9799c981c23e02cf1b3132b0d7f662119573b81993866a46eed30a9e541e4c1d508f33a2cb641986347a52 0x6c0bc4121c895f45c55a347c52f3c86c8c5f687d9ad8ff1b740a3280107df066e0c8da37e24f62cc4daf2e8a132f533bd0cc1f2938526d4b1879ca97bf10cedb32 0x0 (-0x3087de7ea7ea3e82d2dace73b629989c1d142bc0ba21f5ed1ae922add2cddbbf76efc79fb7c86769fb99514726843e1fb363dbc4a92c380087cb360aa7f05c66c94) 0xea4e6c64052f21245c66df8ca61e54ec46f024885fbea6f20944f7b9cc5ec51e6bb1376ccdab43b8d5372029a07cc15e10e2c73fa432cb08b875e78686166393e3 0x49175e37937b122cfb15cbf5856cf978f2f4c8069f26be11e36d7b8115a035a0df53ac6c2d853a5100d39e44843658156fd2220cfd68cb324842ec203d80d09d41;
Dbl 0x96147ea58c9cde8681f49b623de28c4e2c0ad2e063aa375977de5fca96c193221d183dff28f3e12864da7655198cb018864e3c91a720d54cf584ac754d14364acd 0x10057ff23b91045db6f69fcbb6eb930296e774728732b13c1c4fc212c3e0208f169c91593f419e9b299c89a6c95f8c25ea9995a9535799513c8f4f7a6ee9c3342b5 0x909439bcabc3407e569e0b0599440b0802ed4424827d3b66e847ef5b9396b27ca318231eb690f35421a42c1991af5907efb2e5c189485822bd3b5b117effd98ee6 0x2e0a3f36028e4839bde04ccbf35c6ba3c05bf3d9780dee6d73b602b38762ac26135ae2223e368db668b982c3c3555875d53399a336e56515bbb110f6e7e519e74c 0x0 (-0x20b041269b9054b838d616c0a7b5e6584d9e918acb2ce7e51ab8ae34a929d505b32eee82434130698ecced536f6412d1ad8ce7fc700f8ecafeb29377f41c8e05354) 0x2bfe030704a69760afe7149164d1d2c0d777097f8ea611636ccf81e272ac79fab5dcaf93d24bff0c06b553cc653909c80143c768de3fe7d0a98aeffa15f2766e8e 0xd7ed84eb35c5aab2470d6b8f70f41542a1e8756bc88b3fe7849d35ee4c69112b192add23cea49ad0ca72115f52c5a6429e2f00f77de6ee8bba2d10e47d96bd95c;
Dbl 0x13f38bcbc976a094b30c93ccbc248332ef452bb01c5a5c51a60b2630c3b61681209e32bf17e38c1275883c6ab10ff958dd497074a52b07f3b88ea7e820c523cdab9 0x1bf11b84c28883568755bd5448e42d97be4d4a041a56a3a8325fc1e0210ed3cd44e525060df102492e49c0c29e069acd807be37483ca84053a50add9a13c2cc50d3 0xe33e2994bdd995f1248a4304025d5a1212eee75e0026a21f52a7f1c8365768bb9bb219eefff883ade501dedd888361e6f20df7789b4b7eed410c28a9782acd3fb6 0x1414646d790881072fa0e2776e07656ad89a2a6e6cdc0d93e9f00032a2d14cc1d1b76c5331509c51fb52c8e42b58f1586a1db234cf8d154c023ea1a0cdad966f1e1 0x1 (-0xccbf6bd42ff6a136694d6ac153e065261631203719c88f821daeed1436ec8acf64b11a68f2defde146e235f3cf924728330ccb46f74c51106b6794080deb20c484) 0xc70739788f81056ff7b69b44032cd5d3a609a7231be632229885b6ae1e3845cc458952da8c1e9cf22962960ba49013ce8298eabbc1fdda18c7d46d7803359b3c8c 0xc84ee34132f482a09fc781b063101307ac4dcb189d7c921bae3bd0f5592947f088ab3e117922a2f08e9f7e605b351302856a5ad2bb1f553983a06a8d87a28c6903;
Add 0x171eb8e54cb713bb24c280e1ac225720e95e8e02588c77892570ef778414cdb398ff681b9c8b5ec8de30e5d33b07e3aace90b3b4fd6b8adb09f6095d2a8d8da99c3 0x11a6f3eb5f057d0e7ca0f7de8ccf0f226328d468f07eaf7c6baf20f432a55d9eeee3159e040698c0947940ddfd2f188bf4c26cbf3eda352ee6a228380a0b08ee8cf 0x1738b1dbe0dc5cdcc95f8b8aaaf557c8e269d91c7e5721dc744d4da33c3122b92de375de41261dd68347bbdcfed54bbf1ae144f23aee835155d03fa16805821e856 0xa4a2799638306480ab4c575bc151e755b24759b29d7f42bc6b0a0ebee69762e56020f6809ea698899d07fe4a0d782418bb976b544f04ed653ae85a1973123d6804 0x0 0xf88c2a457184307ea7bd9679281f43c7a2383bc06c64face0403f552b081ef9693b1050267203d39bb9dee68b8c6ad2f298aee947b22d61109115f1be1ffe6936d 0x0 0xb3935de47caa1bac64909f7688a9b43d463f6a86db9a7c25467a6339b6f41f776bfc013a56f2df763197461c3d01d23e9d20806e97336a21c73f3e25a54d6b685f 0x10b44748788a60ee1ad8c8539fc6ce0c0df371070e831de09f4349acffa4e88d3d78e896a65ee20ded27889ae98063cbbc86de6a1d433ee8f83ef023ed2e9ca4c7f 0x76f2d6f7e5bd1b22733dfb9f26fe56cb14f8b94c232cf3edffd5e251dc3b6af64cd9bf162040be66acc484f4160ae43714b2c152ba97fdb7f914f6b4bcf7968900;
Dbl 0x8cc246f08090707e1c5798ace6645c2b6d97b247a040b25a942d8dccfea8916393bb864ee7d9de38793d1df3fbe974c2a576f48034951505e343cf7ae8d9b66c49 0xaf807c416b76d5c8a0dc30d55bddb24ec273b0851d49427536f681e1029888cb5ade70e5f223da885d5c77cb62ce34abfa2699ade09786ff8c53868d4a97746efb 0x1c02fe0427a24ee2d5d6953f4ad91fa94c9de621f0baf5f3206c01a3694cf271506fb772bceae409ee26acc97bb425098014847ab48aaa0801fb9bffdcc597ab212 0x6aeec27484e0fb1f29334d1371133fd770199609eaa1b55183fb8d6227bd51239352e8fa4e45b180ea37961470235413520032460d0bcbeeddcefcf356191a79d4 0x0 (-0x1071bdf1ad9432266a897604da6ca1dbd23e2ddd245b953268cb44417d859683d76b5dc9fe7a1f63d1f8d4b85044240c04d08ad28df8194cce7aa4c879bd9938aec) 0x26b2888352649f1a5d85b4d934b6ec9fa4107f40d54f90b1e2bf8b37f0ab4444b374abf231ec859c2e2cb239ca0bb6a913384b322804eba3ec117ef0aa10f893c8 0x1d65dc7469d6cdf51b11eca4965af07dbbc46784f14a7761391cdbab9cb7fb8a04ada3818bb4d8b34d6e38679eef94f0106f2ca8f4c1205f8ca9f9a3f10cf26cf4;
Dbl 0x9ba9724f99db1ee3c4ab297122a29520ddf0aeb8a92e6c1171bfb9df3f29affda9aead22ed65741f8a0df7e38dce13f4a165d5e242fd7688de21fe851f10e3f69b 0x6b620b657d1314112e4cd5c36b980b62da3921cfa761ad5df09480c930772b8eeecaf03ffcd7704a47da3b95e52b96f5af23d1ffd551375b5c1b7175a085cf228b 0x1527672b7b7f829f925612ff07b3672c1b2371d4256f52a9ec0792d9a9635234b8ee846d5af2185f36eb28316ea954d1bcb4559ce3c3d936a3f7a37c350b2e40a66 0x441e70dbee63c1b7728f5b11f045a6ebe83a8eb575e7951746620117d2215d3c6c1380a5f54c6a3e15823c357da29db64b02c7ae0b464fa430381517aa11a54c70 0x0 0x5c0c44f713dbf9a65d359894b25c461eb84b331cadfe01da1e2833d09d14ed8f93def8804450db453faf51cf3d9087664112c55d9d1901b2309d7fb9546403c47c 0x2f53504a4239bc3f090c4030d42f1985bf4ff8309d4311323baebe0a3119c62688cc80bbf551ee8c4263b8e96273b7fe4808b8e0e2d8c3605d7a5a7ed91047bea8 0x14b5c26c338f04f10dd7931ead6964f02c4c08061c522515c222a547bcfb6ac31909a76539feb6f7b350be56d25b8eb06cdc19b1d403814c5b12b29445be85d4a8;
Dbl 0x60cb03cf914a9e343e113c251db60f033099596095bc66ea711428e33ed3a02161bfdd6afed495be0e7f3daa578bf7bcc475ba5c5e4adba00a3bc702cbde89e030 0x8d94f7104ea5b20f3658f448cff8bd7378d880d5a1c587a61fddb1c755ebc5ec55e31076afeae7d3e51e588b798f3ea430c26e01465411c5cf6e0bb45f8d383c1e 0x1ac49056ef955dd5efead71369973c73b2d892d6d0ce9ee2c4c27aa7837bd6fde78ac7c7ade0a712954ff694eab84313d4a7d114d6173c39ffb096ea742f8400144 0x1ddcd14552e6d6201f7f3e17a9b9f4def6160a0fa059c25b7d0b6cf01da8b65a298e7dfc94cec887662bbe30a6b9c58517e6163fe8efd25958cad65c140f896e66c 0x1 0x3c682b5e54bd3811d459e95de7bf9f8556e004ca8d917f8bf794299a9793dd7c53012c752a986a4751c83630d10ea806aa4533c29b3d93c0dd2bafd085bd774028 0x124c71ed5c1b74590f1f05ac835ade0af0d83a6b3e347cd11b6f9d1ddf25583fb04e90f0fbe65220708ad95aef6b76a9e0bb78041697cf9f4222b0e86ba1227834 0x5a53e82df018d97dbd8da129ea73ab3c17b734e8c3d83a41a6dea8f2796cbf4d527eef319e3674b5c590ae7d2e07c6194150b669b2767d99ffe4b7e0aa0d6e576a;
Add 0x1029a5aaea382b32d2ed78db986db4819aa31fb59ee0029f90eb91ca77b9f43c6b587d228d19e04b7d4782a98aa3d10b356c26e57dab41e7bda7ee5cde29daf28d1 0x9fe9cb64453fa83903313ea0d348d4358de2b87b0223eeb18070f8faaabba4ca1934404043551f11b0b639d0419be117b0e94182ec0acf89ead89dc3f1f2c42baa 0x128671ff48e9a78da8e627bafd879118216cc9d713b9f26970235a15e43a44704864d4a0cdad05af0b9c6993f80954c7d53c8794417b5ab4fb154ef66ef0ec6d20f 0x1edab2bac096609d63327b5a7fcafe93deaf5c85a9fa198f49f6cb8ccab3021223caed0366c95c8c234681ebb37f35d8c7fd92c7e5a49423be4956df06d9a741073 0x1 0x1c70f690997a1ad2568bab57d69d527bf363c1c5468c047f0fde58917f58078ae9b41c51837fb007abc203aca51ec3efb528f254d84cea78333748d362dca527eb7 0x1 0xe5d7f4295a5207e5265306a286fe844a07768ebf4ac429491dd04e7ceaf3ad52131ecff4600c89726e1474a57fc1013ccac88d159f433c8550128e61246d2f8f8d 0x829dbdec9de7b6409c6eef20da52d0868eb49c0b16ee45c0e01ad5ce638129f6d79c359fda8e7dd25822499d7bf89770fe4a4ff11c7b89f7b02c7adb9614a22a8d 0xf95814ed4cfc57644ac2f62aa95acab8872b32e96b31236bc46c16e1d18157c26de181d3ede129f6418d826466211d7020faf2b587d33c2dd002e444a106166d70;
Dbl 0x1aa8b60f7dba2763e7af1cfb601cf88013117591fc8bebf0dfe0e2ff34c588a331df009af046f40e03bb91f396eb1d43fa469440a7ad99ab488ae884df2c592f7df 0x137df0a4d89f99174b0b91c1715cf430c9e7c5dfd8648978d50d0135b9a33daa70f46ac5cd10a7584a29c878ffb47b71903b318e1605a1f04eb8db6714beb31bf18 0x2cba390f1a542ee287a9ffe571ffa74def294661dfd77de9b96c23d8843ab0eca72a522019b9f5537fcfd87e63329a3e36b61333202a1f431c81d8d3c6d8a0379c 0x1680ac116bb4616c452782289bd799128ef665a7d7bdb57242fa0e59f1087ca2309ed93e3724aa98d0e19b240465429fead3628a18bb0b084ff4ae752a607926c91 0x1 0x158069b3152a96302e2456d2304c794e41157e5b3a39e72351dc5f96e65710ce2ce7ab08ad4dd9d9e305d79456f2aecd0c03d6e8d6659882ad6687c596ecc70be87 0x1635a154dac6e0453e0d25808560f7b4be520be53b16e60ba2daa384a33ce48c24b9b5cd25e5e7d51f6b3ae2091232199e42d3b9350a2777da2328dabb6f05e022b 0x12bf2f5c3a5546a31bf0d197cf09631e564dddbd3a92f54dca22d82371d6b771f263128563a0d2fcf1d386a01ec0233904fa86a1b60013c6ec911eacda78868905c;
Dbl 0x1fca8e50976fdf6ad304bd4e1062adbc847e84346775a1477a15957901f8b3280048f7d037cad351ded5db8be330c034939cddf7622774d2d3ec1b2705b1e2b19d7 0x1b76a02718128d72af470faef2ac7b0663c7bc77f3a0e4f350bccc5f3a7d6dbfbf3dc942346f27a340f94ca3ee2dd38a314c12bc1a7ed6fa55b01e24d972abb5bfe 0x9617bda00303b75acbea0912004060262f29ea51b257dadbfca239ec52fe74395ca4c2d7eb7c4d39b16d3ed0f4428a45896dd9d3b6489f193966aa945f875b6d5e 0x1807507dc08d0ba49bc482127eb0792a66200967e4c3a485845034d67f25cfeab1b6a18398a17fb509307bd51186a7e75eef1ed1fb86caf5f908bd423b4c0766319 0x1 (-0x1e10878955e924be700dc4527ddf133a9c728fa7cb34e36e53036568c69c4ecf1298332748c686506ce2f883750a64a61b98c23374de4612683ca7a566014e3694b) 0x1f9575e357ccb03c785bc5229584534be59d42d168e4228bcb45437ab388c11ee2e81f627f40c8188c1dd653c966dd1bd99a02d3cd19cdec953d3849004ec49279d 0x17df2f02e585e36802ad6d975931f94154049ba6beb120346431fc17849c82441853f30b896590dfee399a1c2afcbbb090cb13b2d19970a65ee9e20672a99adf9fb;
Dbl 0x129e3409d58e988dd2bdadbddfabf14cdc2c1b38cb6cde913fd21367441896d9dc478765ab3be8495fb0a7832ff16b4e630b5de341970ebcaee2f7d71e27f151efd 0x3af7d766e23aa9c5e86dfb878bc56e19be2466979448ca123afb356bc4dd2af9acf973af4abc83e79b577efff67f63598ecd96f9b3ff25c832d272c1a4a4de9a8 0x1ab2e12675234c84a52d23d69de7303a045c0c424590d65e8ef3baacc5b243286345cc73bbefb026dfa10dc76d28d0a5d2b3d893b693471394b72d61aecb34d8256 0x1b3ba84fb13052c8e95ea1b36b20b5984a0998115c0c9c293e81d129ceb89094c590cfce85246b1f595df524ee375426d7bd452520cad7d48d7d4bb217ce06d7256 0x0 (-0x3bcb4587cfe04233f8ef2931b55b4f5e7e80fdbb3e94bf07e8be6234d63677c5fd6ea928a9f25d9466ec11e17d9df2c0a9448b01e6a0b9319e363c8ab2d935c83c3) 0xad508ad45fd44d726cdfb85156e36101c583e154da54c90f75f217433ecb258387e010b8d67b192e7287168443d203040df4ddd2a1a1a32c36c21dc01780825b9b 0xfd831852d2d5663862044f2dcb39493d48906eb8fdde81aaaf77cc452bdfdf0bae110007f26603194a40ed87e3cec568119b6717d108653ca1edfa59f6900adcb6;
Dbl 0x6da1c271b7ec33b8de36cae8357596c5079d543aa0f58a9c6dccff24cbc61fa5d3cdced3c779af1dded7048c922e1681378a84488ea6cb1977065827d978f28d29 0x1e65f8d3809403717c2d2d486dd05e87cc035a1392c2ae1175b21adba7cf868ea187a30283654c85a616dc1e98e51c8ccbb92b7901ff36c06ae289203afc887781 0xb69659db6917eafd805071a0f920cf3b06309acc0281894b3fcd10c3486478777ca3d1ffdd133ba2d3ca3c467046704d3a90568de1fb49dc940d5de6ba98b63fab 0x1e54984a2ed8fa72ae259b2700aebf859cfdeec55e681de8fadfd987b147e4c20f947f43871467bb8d39e9bd16682d9a8cd33adf69940bb9c184a9e0bdf4dc57226 0x1 0xb6dc2a69eb313ea72c5d7722fc712b0dcac16a6420148aee5d4fc838b01e08860da4db1ac211742400008635c8a9ad94bf57166da06d32f239f89cdae6b1fb3f31 0x177992e57eac84352e67c7caf13fd5bc79d89e19b1115fb931cd497b2d8cd82d8e6e34689fdee5333e1eaf146e5b1960b1d67488f805a1ba5c194d60c7f1ca1a40 0x67e978a7891df28cf97af7b033e988a39ea1cf0ef800386e6bc053ab2d4e73be6ce81842d40c443ccab0b60b4870d70043bcb858f34f58de9278fc7eb05f998beb;
Dbl 0xc47aae953d2d5d6afa6dcabb08157d1cd993a05f8984c00aad96f359b87569dcba55394370440fb20bae47408d800fc598c8b9aa6671be0bd411ddf1422f73617e 0x13962f133b926921272d653678519e8fdf7b9e6ca7bdfcc118416568534a7848ab23e4fdaee1edc7d9a120cf3830d1faf4b6bc51e0b393c3740944c965eda261e3b 0x102cb9f59f08ff7928923ad3b58da6fa1619c4901f28f46f210c33f42e2e8418a0ae63abef60f9c61c7ff9a154c95b204828371ef8d50be9d12304887050b61185b 0xe503079fc76d715f0956d9e0e8b67589d449734916e2e1fff19bc45673280203ef495327954670080c04cf2b15d7fcdd804d665af6c5fa892a4e3c89dc22625945 0x1 0x86b8868fa8ed15ba8cf95342a1a7ca269d78b5a44379dbb3324f463e8aa6912c95187d28d4e79943de0aa69c317948f2349a3f1e4beb0d60ceec989eb90d434aac 0x4b660b0fb17d7e3964ecd04bab8a0e514846e24e59cf6e8d720ae21a8d4f13f34264e64964c30fe317f9d87b479953b4c2d0de3c2989367cc98bf9c40fd2e25339 0x57e208bac3c09635bb6d84e8b1d5eadf2a35d40dfd833cb4dc04c1950f226664bf1c5550a52638e3ab5be7055c74a6b7af9b5a9697562dca955a74b103aedd4310;
Sub 0x1c7c69a4f9021c5a7a722230cd9576eea171c84e30d8e485b35a63334f3969cf1670b305d0c4b30d530a28c856a95391e981d340af5b508f4be70119618b99f589 0xa11d8f0363651fafbb5ef5c6f154625eb9d597d63418cc2e29a725fc2bc12085d4fde5633ffa5b88cbdb810f183d75a7877dbb6fff9f545571417e25656cac1c52 0xcdc4b3dbb84a149ab8fcdcc76d6251957236aae82e478f9e8afb1e4d7f12d47eb9fe623d33bf5bb487ab8390d9dc0053ccdf060bd37070d5f84866cc76e813541e 0x9845623055c17262b7775da093c5869f3de44ef447c6ffe35a6f308908e66404dd406a77ae2480f4ce368be46acfaa07c3ee09ae0b99e7e1cf52ce70f96d7a01e9 0x0 0x72dd632d02228d28a538149c1ef65349b51d824942da8c5c621e2dd5d43c374cf79d047c762ef5247113ef325b6a20066d387c6a49b3d1f4a49ace182d174060d5 0x0 0x66404bde4a20b665c6b3204fdfd35ffcd5c80c795a9fa375de822daeadfff7944eb2e4fc2ee3cfcd9485d7b72381fb43390e747c6e22666650857ac5716c5d3af 0x195b9c94cf137697d4d9ecb62a3c68518448b56d1b3e5a3caa8c7d41faf187634b2f33973385b30b32d281819f2c90c96d80786c8769ec0477d75d8e9da7674a2 0x878cb97b750152155bd235bd0239ec1a7a68dc618a4ec1b6fcfdd687cd4900cc28f59ac1a3e309b027671bd1d31430123a067dffb407a3674fc3f00fcf21469c8;
Dbl 0x1bef83cd62289b0dda407ea89a48180616d385b4f58f280ac1312bf3b7defa82988e6af77b022773d170e63b83c64a5e38cfeeae1a75c2f21895fb4626ddc12c6b0 0xe0699c925481858349f9be327dd71decf8b770717e24b44e8262a79218ecca870808aa1dea2a53f6e81a2354861be825d839f802466242c576c090a2a8bffc0dd2 0x1cc908c3243d730e508361bc9d3f62a1ed2a0b2a04936456166214e5361fac8d693526e718548c22421729d2fc1ee7bd4860aed5bb31e0048bd9498092dea7140ed 0x1c0b3f2710ee39a2c71653794737d4471c11e2764b5f417dfa7447e6a12d455feccf53b4555d00791e3c15dba92218d81af43c36db93d118ffa80ed82bcacb00e7f 0x1 0xcf2aeedb49be7d0fbe83e5566ef0bfad51d54d7d9617198db03c8990a7965f5c4a8c2d29da38278e76c242ce254635e16425b057c318ba2771ec3fa1995f0c0d89 0x18632f25806d7e12ca15eec84cf05e2d685258d5d67a1bde91aa527297bfc8359524daf4c897b9add334c846b03018568416b30ee77af4db277b6c0b4b48e5f8d76 0x187b64caaaa9faccb4381ee06426cdb5faddb1307a8e49f1fbf6bf89cf43a8270e0562bcdb7011b808e10bfbf60854d18784850fbd56b466f24f21ccb74c55663bb;
Dbl 0xf0d539bcf8dc5affe3156ac5920ff8f212a24d3d048740acc060ff1da64b9ac78ffbf1803b56ca1b4cbd6514ef81c3b86dc986d3b66df6c8c744b32df0f7100f58 0x13eb9a278a1aad2cc85bde598d2b17a9c871117c8da71c4822e4d5de9eda7eafb5ce2d9479a37650f46415a8391b1facca8090fe1d01437ea94fa281c3baf782a3f 0x18653848b60413a7e11d16ff934521d1aa623c701788989056cbb2c21c299b5aed4647798163c783e221b0784a4295e16c285b6afadcbe09120ee82a13abeaa06f4 0x1a1affa19b2d6b2b6c43bd899ab25a35071a658a8a3b2efcc541549a82b44df8bab25d0d64ff2eee7a1d8c8d0f469ed593030e820764e0adae1c668866d1083e392 0x1 0x8a31a33918fcd3dc0aa6536b3906fe7cbce9ede0fd2063dae14f3e71209326d5cb442de66a6ca02ac11ee8680cf824f1b63d3d4a871a0b3dfe77456863cf7497d9 0x71483eedba0c7dcfe6d7a963bfe242d9aae9aefc60e771bd0fe1a01b87a5415baa9a0514ceeb65ae5b3b815cd8aa548cad2276e8d3ee33786a7447adef7384d7a3 0xc478700bd8803cee2fc711a4bfa8b5db6fed3bca3e01e0353e2bafa0c62d0f90c200b0dc44f15c173ebd2d8ff85f178b722f2b5dd3dde66416fbcfc5432a4f7fb1;
Dbl 0x637ba8b76c6620f65c895943e6ccb986e32bebe67d752de9a843cd0b60765ccbcd81e87ce97d1b27474da96766c8f917c239bd5babbc405e1d8fa1ed23c6e4e513 0x66b9fcc92c4445199b45c8baea0630d92392f5cc53855122d88e04841cc421715324a4b87f4f8d844804460276f24df642783831b6408151737302c223897d3f94 0x14e1be13f2afeaac296ff61af136acac9c0a61be8b4072a8e1a30b58c5da70055e16ac9948ee071ff04fb0ea164f07ca4647d27379706d9b18bc1f8536e8ebca1ca 0xd7ffa5af75668db2ea781cdde8ab49c3637e21fc86ec735f55bf5965d0e3c98a09be348f1ae7d78afe3d14811abfacd66590d7b019d3b6992187255a1825faeaab 0x0 (-0x1bb8bb9bed181c7dd42d097b39c9df9ad93a46516cad16fc89cd65311dd8be5d057f58bb94c8e60a68f46c95c9a4f5ff71c88e891250030c810cdeb0e8f04335db8) 0x1354701cb6a534aa35bdfaa081f6819b020c5fb2a0cfe5aa43a233a7dbfadc10eab44dadd44e322d9509d14294c091bd6f82347b88b47c25383e2a4a66ad9a94a9 0x29f819a0fed2560e2d69611dca99b088f4386f00667cdb5b7ac72ad0d6fd2cca22feb494220c8dcbca9afdddc38e6044344fc3bd6b918c8e9fbd22618ac590470d;
Sub 0x56dc9df8c6d3a6ec171da0b798601d441e7ecc7598503251cb1f5ca4e5b73b88653147a7a3e79eac4416387fe37776f19e5809987eed1940cfebfe800b8bfb809 0x1f1aa7ec211682d5ac854053a3d5e02f7fde08390db0417ff5fca69dfe8e1756ff0f57cb8b00063e87ce7bfddbf2fdc8cbcad8fc835e06749091c65f279326fd15c 0x43358ac91066bdc27f1cd47b26f742414b1197c2ef726b5bf8a35e31c38502355bd1b911b7a112fa29767f220e00a9f30a30e936d787e68a801e052b22053cc5ef 0x750f7e071adc17bed2f1c380aca82de125b2723b7881392378c39aa433e2ac01622f27ffcf4f299bcb1c8624b7c2716985caa86980601a086a569ccfaa570d6e37 0x1 0x1a0346ec27540402fcda789ef83e29b24e0f6914b1a80116db695dbd4bc58d4339883595a075fa62b1f0628414f4f4e4d6444ef7df4bb170ed7798443f1c697822d 0x1 0x469c258c903cc7aa5e3cf6ea712cb2a76b63bd7315f854e3e2effe5cedacdf18f6278e568e816ec53947236404a763eb879e6825c1b9d9c15688ee50dd6171c86 0xebc7c21855382c77a465af0401f025095973d6984b447f55f14c9fb5fea080965477dc11d501c7a745abfcbde474f9a456fb907faebc61e0c94baad6d17de05 0x13dc0af179ac1d85f0eacffd0613944e2a924d2510f285833a5bd976b5a894192e0b0b6d3066f2f32c3aa053fba28c40c49b3b418be4991f4c7a450c51a3fffca;
Dbl 0xb7f1cf035a68b7754f4cdfb136bd5adf3ebcf3f8ec336677c1a4e913bee06bf716bb61a2f8d575d13473f3a3580826290c54a80663f2bd7c22809dc347d2b9eb4f 0x12978160a29fcd53bf8a8e6b9c803c623509ef5edf3d533c11faa4700a0f5f1fa29c78d289371d5f97ae242bfbf1f994838ab8e4a2daa9804d9597493cb1a66805d 0xdce1289211660ebef1ab14082342c100e62bf3a1a96514a7d27e0a10f72809901e5b9eff801af9b0b3444b080f3960aeaa7cb7e8911d15508a90b2409e21b977e8 0xc83268b7e76b581ecfab1e80755a3cd4ad418da2e72ee43e402022df47eb8375c72def901c8e8def02057d1e001043448402017e0835cf442fc2f15eae180950ff 0x0 (-0x57ae868a0a18e706169a3b107d47e67b0d4033a45445bf4153b026196576e76eddb47f7dc4dbebb7068bee0d35d3b2d5f41be998803c67531891a6118fb8356e855) 0x4215cd2f1b7c2dd9dca882af620282fece44b4326528113bf51d22f289097137afa953b20eb365e23c383fd9eb530867064201e85f99a0ab68264a0bd7f2ce00b4 0x47ec9119b6c3118b3af9423a677a966301ad3095cfa28dc62c58ef2e2f9ede5d37bc263bf0b56cef42e051018f9eef5930c2337fd5ba6b8d95c91fad1078752a26;
Dbl 0x1bda709d9d5a5df29e865853ba43369dcea4178cec60c58775ca5b2c6f3d28f179696232eabf0a33f440e5fba66814272867a305a589c76558e9e2695d706bfda95 0x18e5698d38cb072914e04d0f6140e74d492a0e64a46b56b143d76afce7c6453307e8f60dfef72fd597d4ed81024cf7af90e6cf98ecb1d467d41fd8da688dd528f3b 0x1e82193f9b4758ad6fe4045c690896d5ed60cafbb2c05c9b7b173cb8e23a4ab1c8a911dab7ac4b4ab4b1a036dfe8ca4a579b00d34f1fe8754b306a52e4f9a6b411c 0x19b217d369d4c62aaaaa415c3b3f5514ebdfe0fa3ad1fc8ace233973224919ec9ab382c48a3fed89ffd936aaf9a501e4f2a3e94bb628d5187975be6ed423d13f121 0x1 (-0x85f8464d241fe911e381abc559f9cbed63fd8e5e6a285a1c4bb521d647eb7a9a7f2275c856d89e74c8e096567c116a2bc1263294a56c18de459a20efc0a2e14eb8) 0x183e7129e95ac395134e86eeebbb6cb0b207b1be17ba611b33138ec66e04c03199df39b4d3c475b142b53640b10748f91fe982861a6353e426c355aa7d23127753c 0x165dabca950fad9a9d5f491251988d598182fe4c1516234b0085b524b74d58d22d7953cff00beaa12c86a5614bed87fcf6ef9c73ffd45b6f5c3d20d2e1e869446cf;
Dbl 0x1053e97875c1ffd0c67746af7ba314dcd9f8af3a2ede33a213774b579e1e89d3c6de205d49e70247d772ef8a56f690200f1697075f05d0746bf12fe901ba72f43cf 0x1367260114e00c17226c3ff4a51f990590aa9fb0b266faf34d05026503ab4366520f358ba2878d1a554b50faaef5fa7776bbf1bfd99bd583f7904e3b8b27a126c3d 0xd6562410fb33a6e04b7b6a0bb17b2ade31fa1e585a244b77fe1f1d1ec063156987217d35acc0f1be58f4cd7cb122e0658855606a7e258769feae1407a8e87520de 0x57e438c23eafb11f2740d1abc214e47b87f6eb3f2045bbdf6d26897e41b01ccb5d9c0825c6fa2bb42899c865356fd381a2addd91315fee3dc8f8a9edd6634022fe 0x0 (-0x1af987bcde920ac1d7e55f72afd3088571025dded5fc3978b1bbd18d56a1eaa053cc9b4bf464abf013c86a95d1557f0179da5a31a281f8893ba581563f87e030c80) 0x854c5823e08d67dcf22f02c0c90f03ceb7562aa635ed39d41712d2603f10961d51ce21b4de3d025b5d17886918803828844046531e5f7550b577cb24e82abf8952 0x2cd89594efb4e7b9ea864300bb2cad321c9b9f95d98d24acc5d5134473a29fa5022a095e0f2e98b453b52c32046928f5cfcae11049175f75b7858129405a399c98;
Dbl 0x191523238e21ee34ad52cd882c8cb69a8fd800ef7c66455a886d1bc334bbf5b7d47fa89668e60c3dfcecbdb1a67364da575a6fd636e1329014a831d9561cdccbecc 0x1c170a79f2e5ee2fd322b9662531a75411c87f446218d804ec55d3a64658bbea4f54b1fa7538438929c93e33ed6c1f42c8cbf52af2e0b3861adb3aa84a1604282da 0xfdb4821a9c898f278ced9749b96d89c65a02268663e61b4c63b4601fafaf0a034bed73628c79f83b09db8d63a4148a18df6407257cc236339f1e16e3c8ee376a2f 0x17501b8721fa1de74f49868e7fedf1b17ee2206c504e22ee60af2ebebd52877c02ba83912d4f49912b8212c6c189db34adeffc94e6bb21fddcb5139341119cfe962 0x1 (-0xe4b40d82d06ef15111aae9e012882647a792cc6276cd38aa03d27413cfce131e105a3fb1997195f2ccec017f11d5d7032007bda75f788ed4b8114d03d7a63f5638) 0x13a914ddd3557f268e8e72408b26151d8c4a465fbbe40c3d16777d1a01f9dae53f085625ff9a6f88abe59376fcc7cef5b34ad8030b644c1d019ca865a1af913e8c4 0x1245fbad287fcec547534bd8ff807b2c8fd741ccc1e2d62b355535331a51beaacd68efb71e39d7a51988fa6826eb33b1c048cbaf7bf1cd7993a0ded34f581afd4f5;
Dbl 0x3f046a834f25f8110b7035798bfb26a3de11edcb4a35a66e353d0aa907bb341ca19739fd32ee11b3416e1a9a84d2f805650f967fb0b5421a99a89ee30d336eb758 0x12b62edd9f45bfdc2710af9998aeb7b4d91d2d19f33e0620d3e34f7d08eb9f2d75e77ecaa17820d8dacd9bc4b9b56fa320a1de5f24f276186992f4e0255aca8ae48 0x25981e084e79ea2c2e6f5b81844233386d6c9b38646b4c5976d3af3c89342e3ec465a7fdb7b40b2aa9a0cf8a7511adf7c57b04f913e5c0fc946d48a2b5eb1c86eb 0x960db9c53a02e53ac1209cc8c82ef9f38ab522a6edad1e4187284293d6d1cbcd96d332fd3c022b04efba26f33b6af9fa82a16cbcdee3d6db14845c824bb399d492 0x0 (-0x4611ebff1c1ed813702723fffc9511b942bbabf606e430d7bd070bf2b56920d1f4164e6b2bf7168d50a6b3d05ec6b3c1cfdb99318d6ca8d7cc815f6c08d486dcd67) 0x7c1964010b01516d77604bd25177af5c100f565322cf8e8e23d203010563ba0e5bf0695bb44b79415913912ba362eb3d0dea1d279ebb00b9229490fb94a3ec5bc 0x1277fbae8b58eb0ef66a5af47910fd24f540551f18e9aa3252ca2867a5926b102dab69d81ff52f6927733f19c059e90c41d0033e49af547f0650b68c39b8c280ea;
Add 0xaf6eca5f3d9fef6e04e1065493e47d4d382e056b7f3e51c7e8e820e4ae91795432d96c0be7a15f08b059a93b7b35c7aaf55792611e50552cfd86880536ddd538b3 0x12e4aa22c8bea1b07fd84155e8a8b1a7e03e4944eca0b386046a5f4823160e3f233f4c685136182efe95b77b8f277285cba5679c3df2e13c7307141c77697bfac98 0x4c2abc811fb9bf6b867563f32acb09ee9b311571a9fff671f07de5eb7b85e4eee36881b1c91fbb790460646442800875ccd5f4113ac8f1afd48585cbab4f7f1518 0x1fd184bad6871e2ba7386e43b006060cf8dee3d5069d529acf78f034e5d590ee52a83262504208a9dc37e4492a8dfd1d54fc76c2e6ff94dbf68be0c3adf14e901af 0x1 0x64dd5fd33d57f8d8a36cbace24c7e5994f366d1dfadb22581c3ccf212e4ea599a3d6a14b9f92263483db9e8a73b3fa892bea9d3e8da1f743fd35cf8423e9c2f0e2 0x0 0x228f7dae63df402f091033a5a9edecca9468ad1432bcd9a47b71f9c5092a563cec74640d326f6d8eab1bc9641d38de55be7989efa23a84ada18af6cb2ead414295 0x3c1c5450600a07bcaf4d63b4c466c86210a9e9a572c27db2a910897959dfaae3a1e7d1fd66e96f6ef057a4d8922de2b9670c1f0e85966fdc434d7988fd92e14b1d 0xae6ff74f50983e7a25d1b39d92cb3f16ca71feb509dd07ce5e9e87a995f970b75493df3814ef542d3156e6f617bff6ef70eff7f4f85864a6855d90259629b626a6;
Dbl 0x245154e674c7c80454c63ee0295b4583896717a8e7ad423a2c173bb6bee4a6fce8fc14f8f1d7f431250fa16c1158facc278b8e02d924c25745ff2df40880a8bdb8 0x1e1022051c0544d52f8a18438d475e34ae4429931cff8d962dcfc7b8cd44705003ca44b6f1a371eb6dc83742ece21d36f31db261591d88842d4b727bcfcbe52e7b0 0x3d2928cafb90a62c219ca3b19f4e77103275d70c0a1b4d5ad075144c08cfbf753266f0fd520eb89649db57914e171c469a3dc967d719eec2d3478d32e3fdfd888 0x14d4881dacb95cdb504e29125b61537331fa1fb1cfa125efd69a978f55d19def1f7507b15f92a64390cd8038a245554ed887b53ae4d558b845bba1a0a79d96cc4e7 0x1 (-0x20ca00d4a7f96c4aae3568643434e381ebe22fd29d822be522cd0c374e4ad22ad5a1c4d2b3b95d92be43fab56ffee903ea15ba1446f0ad101205b7ceb4cadcdf3c3) 0x2937cdbd36b1163790ca7dce167137b4dff8cdc515153b8fa3ab214e092890630d421699564ea0ca8e79ab3e68682f41474debdd439f8e134621f83785fb90ca0 0x17a40a5dd65271a6fca9cd015cba91690e36e593e51748391a6cd4405c5d4ec52ea1afd0236a7f6cc099e7d1ebda28b115d6162953e63e00ccc430bcb3443adc98;
Dbl 0x1b5af5ea93789fc3ac222d65d12ce92201b9b0287e97321d960873c7186b9aeffe2eb338121dc050bfed29d2a9de86988797c3f60fb5ec000aa830b2128cedc6b82 0x330d99446cb622d1fd471e2370fcbb9c34f05ad4dbbe3e3eb0f6484084f77e64c3492bd6f1a57bb16342304448c37f10b16d4a3e6116eb6820b234b11d930a8c06 0x1588e0771dd327fbc931b3cb00927ce2179a5e4239b3d6d5875eec82a7d8c33d0d4f506e8029cdf640f8442223b494b4f0438037b8f9927d6b7e42355c74c27169f 0x1adf4870d539e2a80fb5a6615637927aeaf523e5cf43a9b242c06334c4f4f869b795b1f982891a305794143ea855e545e806ddbd730c19cdab404f30bdf2b485baa 0x0 (-0x5452469ad685ace8d9371320dfa1cb1a1d8d5078695bfceaba1234dcef53e52aa1bd98d1cc783870877a06fa1c62c6bda29fce7ca14a09ccc7f731a804d8ccc4f23) 0x1762818a822fbdd35944b8e30f5d9698b3e76c5f9eecb64afbf60f0ea7a673bd7042faa08a5703199c9c4e62baa14bc05c551c18065aeba3c53b79793a8e31a6d62 0x16f8c79d707923e5684e068b9a3de71e6ce1799005e1362c3aafdc7a755e800962e366970c1cf5f8e0ac5121617791cbf306cce4f7ea13b3fa2312f3208c0e054d3;
Add 0xf66187e97d530399ae19e3353f32d4180e8e3e4f591bf5a3e2e5e6b8c8e5cfcfe239489163f1af51eac1e1058494e30b92374ed8e091d710bfc023203558d82dbb 0x1fba7120850786a5ec1b6bb8faaafef935130d2873647e367a7ceba3e2cb1113b24d074bac6bdee1c0748e89fc421c7e4bdbf6b4d28dd35a8da95c8ba46b50435da 0x853e3188abac7c62055a27bf0983956430c2765cee1b2a47eb87a2fa2329dc0747d2ebc1ac7fbca279ca4bd8f62d6df4b5a9600537f886f7fe9911e81b6b7f19f4 0x3766873c1c3db8733b906293c64ccc08e3bf884da5765ad709278e0258466d299e78b71c2ae78d955bf947a484a1b72bf3addef13839b5bf461c6bf6d6de06562b 0x1 0x16c880b3db5b21de82fa8df580ad925e7f253f653a2b8fe898efe1f91248c312708a7e07879b594583a44128321207f67d33a018a9f91812584b8b632ebd024ce9f 0x1 0xaf6acdf0e397b4f779de52f173a1d9530b642d73b7b34f8d208d37bde2c730be270e7a62788ecd41cce531f42a96f24d80c979f959acf3af592fa62e792af8cf2a 0x768fcb2e81fa4d7b80a9400b13253b5c8eab40b044c4dba377baf97ad5a6af215a9f4d2daa5015d529147ef0eee0cbeb35afa91949633dc5844c92e42a473938ad 0x1aa8d09b4cd56924c3948913f0291c6abc3505f42a6360cc398ea0f58c337061c27afb1a47287fbc5817a8742b02a86d195ae0b290ee0b9fbed4607008ef97b02a;
Dbl 0xd79e0a7c35f0373e6c725809f123a82aa61c3ddbc93db15529bda62fd0393c786b97b89dd47b771f936c1482aaebc91295db90d833839ad1e20b90dc41b502cdd0 0xb756bfba2dc0f6d0163240301020fec202736265bd94cf945a151d33909eb50df90d687dcc38275595b0294601c99bd4167ee0c486a8a09200396c5e8206422e0e 0xeff0c4e8de6fbc462dcc3cd68af5e8e726df098879e05f30c23071cfcf5647fa98b846148db9c494c812b0c9fc9ba08ac91f1fdd6ce90a14d6e15b6ea0addabaf6 0x14450524e22b7738eab847b5f9a8ef0d14ebd702178b313d34db99d0a9c125c2d2bc30c3cfa85c6c67198bf59c2582c10a7408a88a2349516da5c5c5bc4aec207cc 0x0 (-0x575cd483ec39e9fe2aed31cda2281dc42d4ed65ef91f226b607d93a21bfe7c6abb84f0901ad1a21c052c6c57e72b8dfa439885ba7a2f6d654bc77637effb37efb97) 0x5acd6b96ca2d00e50dccd51f6b6a16cf517d9baa5530df8934f86e95e5bb410ba49dccc9f3f4d8c53d2e0327421572ac56870dc57d8acfffa3bdd6d85f7393d0c2 0x8893d5fd74eaae66e637d4401a2e984be69d7264308ff7017e565590bd6367cc139eed56f64c4e9c164d77f376a35fd723b99c190d8b4a35286e166f296fdd232a;
Dbl 0x226166a9f8c3964ac0e08966dbd2fbf4b8ee19c49f6d54113a50b3543ea2ab63e9d7194780d2c7024673e27a1b1850a4b95cbbda65e8d240cd44255d8bbc80ced9 0x9770c5c6b36ad90f9f37a7d2e43be6dd0c6bfa822b19c8ea8d2c78d10806b717a1f4a69e2f60f8eac65df452e66ebd08676e51348acdcd67613b28e23b95888d44 0x1c334500aa9599c3672e29b24040c6fbcb54afc34a862f898a328a88613a49a93ee79f9e9643871ac00689fbc38c169649838a99cc220c4e39066576c303feaa446 0x1fe5f9f37a561dc076fa985d2be517e4f60767e3927b06a9cce8a4628897fdf65718c1df9cd72e6acf5234f31b5adecbaf108f8ffbdad32a9efe437c4670b9a0ca 0x0 (-0xa4ba70a78dcd7b8fee8c2c8a8ce0566cd62781ea2ca8bf6ad9ad1d2b15fd4ac69b940bbf69e2bf142a44bdb5e94a367ca0e12e6bf9061d2b461e8c5835b931c2c3) 0x24f022a0e072d9cffceabd6160d48f70f5623ba810c3d38e43141974ba78e568ce11abb8f80985f262b674e61a0051f468173a8eebc9b057cc64fe4fb69eaf56f 0x22457106d747c0d1e2fd678d18589e9e37b07e182a86814d72958e096c6207883836bbceca74983d9f03e8de84882070c0f2f6cfeacd549870b1775d344098802;
Sub 0x2f07204dec977ce0eabc3b7caebb7607f1988e03c2c961bdcc2309412aec8015a77c11c6abb98fdbaa00ef06d76630b0a98a9c2837d0859dcb63a566662cbe9d68 0x1fec7f7db01edf688b0aa2489e6af7c16c5339a9a617d12770fa83ebd137c1876ff499a975b06ae4d1c5ac07ad5c8b89195941dee0e5bb5b143661272787287040c 0x206a3dc2d50f1c38b946f91f4e4deb5e2291c0f18d47040a0233dfc9504fd1d425835e4b57031955ba6967551c0bffbe09c193a4d99836c49e297edd8f6284726a 0x98a8cdebb17ce286ee8d8348fd8c6ac647385fe7c99cb6737d843a13f48a9ea0a2ab0c06d45a4a9daa0333d810a60476d1da33467c7217b61dd5166fc323018937 0x1 0x1d0eb37bffc66d425d19969077e185128c9cf9600f21489356b345021a79b69d9e7535b3fb77111919d5fd691becbbd5f893b0880c9486324c541aa6409d2a2cfdd 0x1 0x2ab4102ad87d407de500dda0995a2e95cf91eddfbdac50e0f12df9288e33131c3458c2874895d4400e363f2b46448aaabcb61ace0698c3da5896e325dd32170fcf 0x451cf07b29b1180bbbf7b01460ffc82b178c286a04cc5fed0d25105bcb44b7d4474b13c5acb4863d04c0c663178ff0d91f64c64d52e37786bad836ffc03cc9476 0xe059ed7bc5090f9cbb79b5e12e211d95fc43d0d99c9ba4d58cf6a432ad19942f483d8d271f0eb329104ee8c8e2ec7553afe204667862c65277a9a615e2dd69d58;
Dbl 0x13250e3ed977914fa9e1b1f16788a9e6112a412a5fca5b9863352845a73930052eb5d8d89ffe733d74f6eedfdc27e072e5664c834de164c56067e342d46b32702b0 0x1866834d4a05ad8c2122a242d7ab3342010cb6fac44c7cd4ab7f329b6eb6ce91d5938028bd097fb655274e5ed79f2df82133fcbde874ad4808c330a4dae91fb3d84 0xba07fbbc2cd4214fb634d85b64d4869b90e57af5e405495035d6e2c144fab95ef98a6b837d1b4bc56d4200571db003f681f75caec7e990712011031ccb2de61f35 0x785fc30661931dc69e80005c6bfc47f6b4682aee1cb5452c57b51506280f2f59a611980b8a6eb2e7c9e5da8d5bd5d90f8254520f8710e130b7330824c9e08bc688 0x0 (-0x5d1e8cdbd595ca4efb1627c48379558f2584a35dd0b15ecd9b3abccff5a360f883b595dca03a24991a55a0a329e45507010d16bc5c5e53db99279c2eed4c209d813) 0xb742bd399ec5ac7b64d081db3d5ada80b1d83de24b91d2ffd9977d84a20eba9de64585122f310d43c58283e8c15dbdacd1e46d76e1890865d27a0846ab85620c9c 0x4804401b9a37fc13e26575f2404825002890a5aa342bce2be77e1dd384d9328f77612ac24e6c877cc7fe21b820bd35f22d7efc86c98f6c8677161df982c20d041f;
Dbl 0x2c51128b8d1946d0223ad5d5a69557b7f1d00a377fa58a1d8368cf23f5f594839f947485b0b523f8182e65dd4714df710c711d59e1a7a4a3966755790cae82cbe0 0x10cef4310f8a91806508065afc7d09eefb4b9202d00570a54c07dda062a8d5d83fa076927b686f0fa890e93db465ff21d19860ecceeb6824e0532aeec72c525660f 0x46832f9c026f85c7e354fc78eb214d054262b4a758f4cffcbbd073796749852e28145ec01f3ac8a868fdef580a9642cc1d6f530b11d76dee4cc8ddaea7fd953cac 0x7978f1c3a7b1c0bbc1a9be7db2e295305c124f7f4470c2f5f7754fb0c0df8b995f3099641a110a6ac96652123392ed64f9b9bd119894523287005b613bccd5d775 0x0 (-0x35cde37cf418ce8ee50ab96da007e4859af90698118a5ede910c93a14f58aaa5648a521f989cb8f4b7c847321f1c3f1a832f51df6caf3a301c171da48635f282693) 0x3d5fc065b13f32038537409312f7e89c9325aa8ee7d3efc854d3c7007aa607d7be4f633bfda484c078699a53a53cadf9aa34647a0f42f041b7e109ad7b73edd17 0xa83a0cf6c2c9f7b80ec3f296950fe9195f86cd1f60e3a789d2f028fda84ea2ca8d42e739513f6247ece9eb7b329814d184bcf46d94b4234a8c484882d6f1b0e81;
Add 0x2378ec1d253f71f452d1f23365ef1a9734467e939e15d7d0e52ce20866b11137f7493d4d1c2d2ea2746634dfab718b09e9fbfe78ad9d725465896fefd257916586 0x5cffa91d16b37331f82f98abcd22802aa6bbee3f08a4a04677b3f6f5f81615ef7f70d7b11e4e1b747cf5c8b660570477e25cfef40ed6bc871c8fee8fba953ff7d6 0x16db841ff70e2c49f1055660aadc04e49f2b757d9e0d492dda01a90d4fd03264214e62ced3388fdac2ff4a763c6916cb5023f02f7637926280da1d701a955709d78 0xafef99f3e1f5a4d45850cd03faae1ec50dfd31edf7b26a0e48c9e310327747947a9691769838d5860c18cb24e608eda537290fd8dfdfc5c6e8a2c05cb82fe56e39 0x0 0x4669b50a41a5131c82e226e461ad093b721cbbabc751ca9f9e85b156ca2210463f661dc93e9709a16010761a1ebcf2743b52c6192d31180b6939306e41023fa8a9 0x0 0x4e0db1f5d730418af0435a1161c6476b82e2c0fe25a510d6791ee7c93dbaacb8fba432bbee9afbe02e3b74f68074e0c0953343cef8d17a98ad1bab4451c2de0e6 0x27524d716a4025109cc5ee2708cd153cd6a4f01aa111147402c35b5b8117479d8b5a3cd90102937ba931b882b4e934fa06a81048ccd2b10ed01d910f1df3c1927 0xc306e50b5f0809293a7b39be88056bf941bb9eb27770594e95a9c537237a61b844b078b815bc27ab8445498ea3e1aca6453be14e55894e1257102c1d7ef28ab4e;
Dbl 0xf34afea6ea74ae5e69a2e53855640dfe13875edec116e2a247edab20e25e9221f8a501d82203527c5ac7a0520161552b0ccc28e15d4e5dbcc61b45d9519988e3df 0x7fb99b2dfd75b30901c5e25e799a676482b4e220428f5025c98d5aebd16226f38f19ee7c1fc38cf569625dd33e409f6c08739dde6791076f864683d0192fde3fa6 0x10d7d72b1e7153a12a4f42556835b5def7327f27e06a00448f6508a17462a423c4acfd86a2be946bdab8409a6f727c083b872c0af15ba72888d2fbff59287efdd33 0x1dd460def193dc028f669b64d538818c624070c1ec6155020ae269c0a26b3eefbf056e934fe8a8e7f13936ae32216650bd9e96115a745b51796496abfa16561b82f 0x1 0x128e3e864f1ebcd63cbed984e7b2eb15a55a97a2b785bbcbb0834db1ca731e56fac176b0a0a5e4ee6a82c45c6a8ee4f4bfd5ae5543f85e1ef5721c68bffc4d2cd99 0x739bbab48b745a483d97a8ac651e2fffcfba6d01581a7a068bf2081e35c235e89e7c0fcfb4e690947f2cbea406427aa73bf8eb6d8d272f64a2ef25c4dce498f311 0xe2caa81e57375f7347fee0cf8c657ce5259b314b8a0bbf4e73b248a0574e636710c031596e6aab9b1342df3b2407349fd62763bce8c1e5093b6fa28be1f6f75cba;
Dbl 0x1bc27587a04ca4e0b4bc23763b803940ee04ae5c1a07b684ca19fe3a896e59781bc9009504f92a63130401b877fd4ddcb45cb1dba93deec0dc77098840ad0b7da92 0x2409136fd9f5ae48bfed8432c73f6b20d407431c4433567e43b07889ac455e1e4faff5d7e6a8b0ff17bde38a55113de6ef5a5337be92e1a6878c59f4c280253089 0x1532e0f87dc5b11bb7ce95d165ed602a0cbc78f191f67ac2cfbdc99101b15399c18135aefc10d405c93445da4c1a886ffb907e7349c2be80ea7537575f00c25f50e 0x5bb087be238004c041d85e2bb25afc43aead9f03fe5bf9a785dce262251cc8d53f69f8a4391adbf651a47a48e92f618519194aa6a8fe25c8feba29db56afb90f1d 0x0 0x173f8785eac1e02b4083bc25d97b712d71c5ab190a3b245c12bab9f4668aea7136bf3f8816d55067b2246505ce3bd843bfe8df8df0272e913c28008f53385f434bd 0x1814c4079aa2fa8e74e65ef3c0eee2b8e84dd7278ba7c13d8b87b57f4d232c6c4bc44ed7c86bfa5df73bbe7db7cfa6d2b4461bde667ce2401523a12aa556888b491 0x4f8a21816b055a7680e5da00b17df421d0a91dbd6057fd0e1612255af573b3dcb3be9216d25ef8035737b1a84d1b25ac53908d63270bdc2c3d8692fdbb67f181b7;
Add 0x180ce6895a15c40ef20f7aaebfd3fe59c9081e2f36d102e730c6dee52709e751d52bb15b0809c8c7529ce975b24b337d5491a34db5d09a21c452748bc816f5e280a 0x1270bffe8801c1a201e82cd4e2fc73fce02444cc48f75041f3bf8d4a5eb73fd448fa1a87c8944633077f366938e211421ba49baadd41d0106e9e41998bceba391de 0xeb22db06ae23aa61eb30b60d64b9d49fb23b1b5841cf655ae90e0724962e516ad2f5d86dc97ea93475e59c9c0d42273077f208f72f25b4eceabb85cbf5cd5506c 0xfcfd138759d99428a16ab6e497782b52d1c2f657b4be525f07b7a3e3c0d160d9c00e4d5b5d644dce9fca7cf6c6f029c535109889ea75e09f9da8405c0594819eaa 0x1 0x15d83856922f1a95ef24f4567611bd56c916ade9b0b2e16c921b84fda4bda10e0950eaa796eb8c9a5eebfc5c92d6e3e3e11270a83fd0d7763eb92db7690bd3f7322 0x1 0x106af8b5e6388d1dd531e7f641545c0a1b2af80628dbda3f6a11c393d141ed37ed62991f8e89be2c4c444a39661bcbb67eb70e49553f498d2cbf353a5e61960bf6a 0x12135f016afcf2eeb09cd8db61543cf7f035e8cf128e29caf0b19ddc6afb524849e0f5a978dd704aadac18cb0b2eeb76645be3da7d82f95787c202c384315135f69 0xbe23cc25b6312d004a43a494bc1d00e3cdd7f33a1c3d98589fd3ff216f67fcdf7b4d0da752db7afb4873f11f35c9fcf239546cb69015a278299d32d43562b482d6;
Dbl 0xeb1cdf5f6821eb36a77f5dcee1caad2033029bcaaef41a02317f525580cb33bfc46c31e5fdf9f8fa3db3a0b6d8ffbd31cede4527699b3de0723f3de879ede6de90 0x1c6b926daf23345bf677a7e23fc711a6ab07fe34f609a3c242c34c0300a08d4618d5cbbd278aed14782b0f7fc6d8da297e06d0f4b5d98fab5630cde46c4fb8aa190 0xc1a5645261912b171fefd4ca29a87a5d60efc9c42e5592ca0fba26bf34ec41f3858f8b04279be7a9acaf09fde0c3c938535969d81d0cf1e3df7f7524a76192f710 0x16052d90d8de8d460b7084f2a3356256351c469752edac7fb0fc41475e16b28e30244ecaa109591e8f5426e9720937189d9dcab627684065186d73b51f7f018f04d 0x1 (-0x1f093c4461e43da51288f4d9b3c6521aa82af398d1158336702cabca130823666b503922bc178ec08fd7dce3d0c4297df70e328c78e03f0cc8e75bd0b74ea1213f7) 0x6bf702ad647a341dab64ec08b906ccab6f8a1eed701c8189987d7494a276189c30307517c3c3526bdaee8e68a672a5cbf09de94f0cdaf25020afb8cbd38693b44c 0xa1c9e4dd53f0f8d21f5213101d9f005852dcf805f1dc0f5438f0dfd6e7b64c9409c4d2e7bc452ac371f5424f408427fd99f4e61ca58470f2dc2fc93a75e1d0562c;
Dbl 0x6e79ee2cee15e8cfcd68fd33be6d899a1ddf434e6275fe08091017c23b033a2907de900fa2765274ae038192dc01a052611aea2f61abfdbd92ddfac2bb6281b8c8 0x128fd5ab125b8be272212ac1eac9fc43ab0a523b41c5a3e91fa473325deb5ef4f2cb303bc5221edc1fb095bdd5779ade4a499377aaf13a3f73c6c87afa985916673 0xc74c4c23cfd6344cbfc3c81f9e16fbfa2d15c3623f6f9ab26bb60f7837447f4b78e281f1e913849ae738b6167bc443b994f1779076859c17643ead77c1e70a5e71 0x9dbbcc29cc7a87984567d2054fd1562fffdabf9b443ffd9231ed8d0a2b52e51260a9b816268ce38587a79c1f1613f4b33bd3d7d0ae8556be26a056971b75f93b1d 0x0 (-0x467fe8d251171ce098919446a3b48c041d109fc369269feb17ed9b0993e2f7d6a0bf1583ec814c908c77264dbfb08531d0abdd420e9cb53f68f1ce615481745b603) 0x17d68160d055bbae0d66c77c0699ce55c37bba52cbb85ca04dcd9877632e458dd957ca0f13960efa5d233310337af02c294b8ae18f814a6506a42995ce9db68d53 0x2208e91ede332b8fb4f10182fb0f4d772ada02cf76ba10e3292c227df5fef477c54be49437d84c29a11b64934e23395f180c04cb9e5c680af1c6b4cec317cd4ed9;
Sub 0x1b69147153c35dea96dab038dc9afc3e7de9bed2901d224fa393187dd2db80cd9a2846a3fe1351e1c9cbebc24c4520692dd4890876810dab9de9cec21a40bb6b2e9 0x1c8e5b69ca7b8134dc4d2db2bea50f500c1c758a58e9ecf3fbb48089a61c384db489d34b475f5987d5d98fe2bc4864951475306ffc033e0e94870031dea31ce0d0e 0xfce819ef34436f19dc2a89774b16fa5b828b2ef253d271cdf4245f2b930b964a4ffde30ad360e095fc35fdb6efc1a57269c002d78d26ecbb7690ca6d70a1e2ebe3 0x16017a4147e00aad95d3fd0f2c24ecf39eeddcb0e8dbb6f523eff2a8b7cf26a73e415cf07dc2c55449d705db192f364935d46307aeedfc30df3fc8491bf53c35964 0x1 0x6277ccaa6eb4b93d54746d53467c2e866e08bf32e354fedcd84f0a767e4aa2117211b85dda320668d20b3e1c2fd6ae3bc665eec6ed8e39b4a073093177c2aba90d 0x0 0x54586caef558e232b7359b29af00fe3c464d926222bcef72e61e87dc8a443f72a602574c9658f97c7c4cf671fa2cdad39882baa74d2d89859bc468013b3ed5dded 0x177aab8d721e9aa0d67da9d1cb70281b63a0c0948b59d4f96eacec4539f520f07a747962288b4dc277a055846a5ca59a1eff50f351a9f801dfae3b2c97a93f058d6 0x12d9820f1613924743e4cf3ed5da1a2f5cba030791c6d9e0f7bdc2f5fb8cae1ad93cb90a356fd1e617d5c3e5dcfea766b0a19adc1d9ffb22e0dc6fe1c089ee16650;
Dbl 0x426f19e6d52ba374e10dd761741b0ca892f79af2c57a479e08a5a4b5277a19d9d38e697abc6925dffb5f87feead6d913b169b1d3d29200b6a048f956469070dc7d 0x1329c441fb6743373849b2d4eecad0d217eec3f7a436acfdc7bb95e371484f223a7ac281b5c0d14f6cc2a0460e1b356fb4ff422a422eaa0e1fa60d863271cdded97 0xeb9df64c02dc59588356e59594dcc930bd240bd60bb6759ab61c838a6fa2244e2b29728967574552c0d50371e8c3e40eebb5ca5d0ec76baf57dca20c9e8bd6e0a 0x9649727cf143dfda4037addcfda3e7df42db192b4b33ff633f8eaa634d3e92b7a0f10c9919e88386916ef9cae2d2f255f75ee45b9d4940074e0f2abac314f01f77 0x0 (-0x4858b241bd2317cb438e43eea53e76997a25659493db614ec7ba7569ab54a005e4e57736e9b5e7723fa6b7e9299f5c02ad2947666813b476e265da438fcc6113d65) 0x89ebcc93f5b20f3229f3e3c77b9ae6457d3b6f2a846edea8b7ca63605e887e8288d01e5ab5dffc802ce9c27ca385549afd6d0bc1b14356838e258e4d13532f2aa 0x13801448c4d7f3412486de805f907496284f68fd10a5ab351abd699b852098d7ac3f34aef60bfa481a4f8d59f736bc0e0cfb5c47987da85f5e061de7b04246b8d2;
Dbl 0xbb55075fcbc3d58a5661c060a537a8dfd711454d67fbde4e014f447e49c28002c72e809abaa2001292e19ad14f119cbd7b44cd1d912c3e2eb69153c89daaa294fb 0xfcb0a288dd505dca69b1aeba1726ae8d7a7a9db0d09dc041ab6e453f001f5a007d02adbb477004f5e7e7f61a6ba2b4c81718910a7697656c7093a90e81feba1ccf 0x18969144958dd63040e38afd8f9fb498fbaa7aa4324b2ae70c346a958e3ce1626036343910273036d6c1d0f3c255937c1e7efcf5c3a0c37c3f4b06b03e96aa77a00 0x35eba196d923d5a91ae97e94d5865e940471a1c972cd0f9ad04b18f8146598232aa97a60149d1000e4420e467610a23338db9199ac533b7589cd2f54a51e23d0c8 0x0 (-0x21c10410c00cbfa09604319c9ee9f3177996ee891ed4e071b9a98d073fb305e3efb090a34973a37ab27f97d9cf1c738933f6dbfb4607e87a97541591014a5b48a6c) 0x448aaa81ecc1e580bda331ea673e9b7a8aa7d3777becfd46d5b28eac966ab34ed730f118965cea82432896f63602d504c07c2a38409f9d99979ea893d3f816c9e4 0x13ba83e9bb3d3abdf5d94b22e81921d639bd418775161cd4d686b0f54e254398b6be21f4525cdd0888bae9b1d525c854632cf1448a84cbfa27fd718b6b230393f2;
Dbl 0x1e0b7018fb159d813781febcbf2372bb0ce67e81c46ea4644d8b64f39081447ac23d9ce0f73cc98411052fbe5905f9825b2d1e07497c4f982c8c72d6d6bb62c7cda 0x5cc5a0872ad8dddb7ed192be75a74b4d9b061184b15f56181416fc3ec5c768ce4322c6f6aaf13a3827b835add42ed0a799e2c6e5678dfffdccc96bf21483bc21b0 0x3ed3e9b3c661dcef5e67d8e84b1cb0e6a481f35cd3f495cad3ee0fced7e5853e9c1340521a0d6c61638a84f696d99c8ad49c3a73eb5747a3be1911bef317889ca5 0x9feb0201b2777feeeae01bfba17f633fdf748c2c1f3e6a29975749003a57f13239dfe6c49c7ecabdc02fc06c9773e4207d35ca250f09656ea3ca3d1c6d7afdfb1f 0x0 0x16c9bebc13fbbea34a157338bfdfee30b5f02fb1ca32edab5fb3d3df3a663f2fe75e8609c49ab965be462bfe0bde1deca6a5bdb574fd67112f0729eff5e18b20620 0x1c35764570a4174631f9d2d719eb55d73b4445f77af17f8ece9b5cf70c079652ed29ce3b9a96b4a25c9bc4ec682964fe312a93799f11c8a3ddb72f4c39b615c71aa 0x96257adda5f43001734b6cb965ce7f67275ae7e2c9aec4b36649f710feafdae379ff80196b7b93ff7716993699b8d717deb5a026b718012b5975e4a8ea8cf13a3f;
Sub 0x13733ffbdce82770309311b8f43b7370c65d747e6ecbbdd6ffa29765b6e8f8254e2ce4f9226ac9d454b8cd7837954d0e1cc0e9b6b602ccada7b3cc3caf78c3678c4 0x4b9e8136aa8387a167b1ff4ea8ac1095e0fcea05c88066f540a78ec2c21a98d7fbfae564612805a043f464e44402754397a0135d1b4ca86634618dfc4d20578e48 0x367261bbaeab57e76c7cfde8538e1acaa1448c5c01d5e49668fb4a04379a05c6323487f6c7a6448b66faf56de10269b48aaa80b6455270f206372002e27ab6fee3 0x11271f508055563a171f936fccfb3ab7ba09277ee8deef22d36f6d7c03accff64727e19249c93497e3c3d0c9902c5b640242b3884c4157979867ddf5c763649368 0x0 0x19640128073d4d8f1b13353f30f83b5995869ad03785a1662f21ed38f655c1b9088817b98330152defeba17ecac8bd0febbaf7e31a60895bb30cfed73e2c0d66449 0x1 0xf6ed2d8a61e06dba5d8463680927b574dd4f760e98417cc9a9818e5479b6b60c35d0b7c579786e4cfd3eb808ba09accfb06a6b4b35bcdd43ddf4d006e980cd0312 0xbd27b0f7886e79a3a3ee7dac391d37003c14cb01326d05a25040a19be5219d0adb781e6cebebe06ff29ed11ed7c33a5a1307e18a3a08f80e07756272addb51174e 0xa6d017c5c6d620748aae409fc223d7697b4821e29ad68cd379b0a0e84392cf6d68f09f5aa589c449ad750a17a49709b60e05a60fb5c78a63af20fdd6a5c35ffe8;
Dbl 0x1f88e2c1d7968b6adf957bd55dfec9b2ce765d6636f0bac0261219187b9dfec07cc5bd5330f7be6230d1b7b191ca32ec8a4c3a2a4fbd02c566b3db653e9880893da 0x1209f651e064a6b67ed4ad3fb07613bf7b4ec58a804722eae198e847669577b9c3e179f88bae037e17af6e513394628c7c9a34e19fd28305c1c009834bd746d0363 0xccf0e98be5c291b2d37c274ae45e5cf6e5382c50d9e97e17015a264ed9ae0ae05d360eebb4a564545977b5a53a84f08a8f26e766ccadb087e5ea87d3e488678430 0x12aff1c18a4391c397a672b53a14ad49e2c10915dc40e384727190a4c58c31d3bbde345dba647cdbec8fd7fd10abc4c7bcdfcc5431e24780a1860f5c78fabea8ae4 0x1 0x49ce0a76f6a65ae0f377a103308ca3a5c0e6567abb75ef3712447dbec11422a377bbd5a325aa6466c4368b46669ff0e93a7bd6a8013c8d15125307c25dc5791021 0x1f1380e54832c924c3471b7bf1cacea79deffd84fd6fd1216dff075acfdfb703ef32b022a8e66bcbe6472e0e8e02c8e87e86e4b710c7dac52622df6912282180a4f 0x126a6262c2f4169c56db474975302795d1042def3f1bd28b7b3b40b388437374600e17b450e0090314127565de732086e4a963e1eecef755026495a1815788350eb;
Dbl 0x925f1bfbf3efcd35474aa06ea8c9ced2a3865e3f4906d16f9da1e7629477a38368a53fda4fb9baf35aa4c33849688a4b59608a46b3a86e7e5abc8391c29b8e5509 0x1ca2ab8848e4f4eff4a3d311a408c4157d55ac917c08912a007306038d32eb54c903303c595b883fece23a0270fc175847b7b9e2097bd3a74c5232969a0b3c0f3d9 0xbfaf747042f296533e3909b293f2f1cf045d2ed40c0b67a4b0cdba6f0f4f3c605098e95234f2fe524c668e5594abfcfbb26941baac79f86148fb97042bdeec47db 0x15674ac9977fb1c68a30da2e0c6d4fa9fdf918f9043e91c0e125e243d9628c64fade49bc32527b3e2acd344ec2984b3434e27aff9656af5e756dd6ecb1cc0ac0f89 0x1 (-0x172ed0123ea03534fed3faf648ced31b016f40ffcd79d089b34efca2305f84e530d838014976da17dd564d9d3c2f562189ea63c3d56c443c412022b794c4b42c288) 0x29d84fa09525d7bbf469660c641347bb887b858e6928ca4b49a596d041c9a292d279bc0515fe60e6b2e497b0b12755d33faac2706559743df18691155c4460004e 0x61e6e2957625d7e46d76ae9a0f7f376ba8d05afe4ad6a9393d064279b1742521a67e91b3b51959bdd31ae262aba3e725237294b2f637bbfaa23ae2bc69ef20c33a;
Add 0xaf7579f7bd7682f20d981c0de3b09699be9d6e4f03141cf2594e44d80e0bf8a451508ea73a36e3ba6153adffb8b6486d66b442c8dfb2c4ca098db5fe3de0ebb53c 0x6aa0fca535502b6a3b3d080148930ef44457683a78990161b04da280f68d3f08f561feb22698e2e39eb13a1f2501fdc9c18f4b55e611d1d0dafc32efc92fa32f1a 0x159825c90b1b4551657af575d3078f436a789fd00f201de8e381d316b0b88b8b8e65c458cf736587c573016a3126b1fad4f73930a659ebe75e826e2c31965b24cbc 0x15f89bbdf58ff23950f002918f7f93263910360dd47f0113e56e2bdb7dca176439ad105136f1fa11b2f726607eabf77bab9ec52cab1ab68a3ea26f679d7841dc4bf 0x0 0x103a52a7dd74b4a157c9ef24eda68aba392be64968783d2eae538378972c3680ed591b8671dc89ca5a5258265e81e75db9d48556cd637d0322929aaeb6ef0db3673 0x0 0x58fa871e63a53d455c8f66a44646264e52ba4325eeffce7351312d55d7de61c8cc5120f5bf6e1ff9ad816c820ea12be318cecd9afb54e11896ea2bd52332a9cf97 0x3c20e954b5cbab19e7440bc5851d56d65c0801bdf4992395b0166bf226e7878d4705169b92853d4c722446da528cdf3b6d6f6ef802ec3e8dc9086e12d469d3fa49 0x78783c6e6b632c3f3825830f48f07183f69c89a9967db9f794bc97e308c3f640d6324a0dc33c76dfca5a974b270fa0b5d987e7432254f82354fdc7215b86346cd3;
Dbl 0x1bb4d7dc991f2b929c69b0ce381474ae4dbdac4f3d30a57e3697ec13375d9f3691080c31460c96eb64fd76ee5a5be7addf54cf5688eec33fde1483a4685d83c5b34 0x14198cb3185fe89388bf58d6273239617453f96aceaa8fcac0486da157400fcc5512d47e4ac4d67b11ffdfd0117e4c8c95af5545b50877f957787f92d89daa7c04d 0xf50cefb2cbee9b1f6b3ac35da00411bfa4a71f8d5d3b58c4870f37f57c57e30cde918d811bd9f583f162c8d417c484ec1b6ec9b21323b83728b6dadcabc07a74a4 0x129083173af51a231af477a9ed56f78dcff17d18d8df004b5abc6c86b828c4243a434b6cd7a4b7b327eb33d1e0d1d35006699f6fa958a523b637439c23f54fb6ecc 0x1 0x213ae9a788a9236d01e32221ae2390d3b72bef346e6bd7c3aa11fcfb76bcda1439ae854fc446550425c258570af65eb9dcc1851c2f97b018d8758e519666436d789 0x17fd2a4664417280bc1d641a92c1eba99934e6b4286f1aad2435d2554b875fabbe12d563788fbbc01b756f3713d42fa05399b1acf9bbc58b6e38591f0f199101bf1 0x1012d8b7e788cca20f8595fdac8ef33019da55bd2f9706c3951ec887b9cc41a39fc94acf6f1bbb40f1fbf5ed46acef38c6bf0c5e25749c7178d62453f4c6ae7bbf0;
Dbl 0x155f748f8baef5543e01f7f0b021c3daecbd1fcab4787bdcf919472440f68296c9a06fb0e9470042be0429671ca5cff0347add441525008fbea869cab84a10fc922 0x162fc43ba5c45c3d29a9de38e2c3a0c1b054dbe3b38e4eb4e948897733b78260569a86f20281a38a6aa4f0e3cfd1bdffde28190272a34e8b1634fce69168f29da05 0x267d5667eaff5076529cb6a94108cbd582bbc83c5d165f431bfdadd64b3d10f20b4f913d0e1d643790fc3af2eb967f5b49fc14a1ea32a8d4561b2e38777afb452f 0x1de9c877729b8c565f157a9d446e989fc3ff1d871b1c4115d6ffe42a23888d6bfe784d8c484332f0a75aeeec41ac8e8cb7873c434265296e414382ac4734b7de647 0x1 (-0x116a9dc880323f4725d7ad9bd6a7b2b687cc23bfa62b89790d03f3663c8348bd6b44ed93c940ca0c35aa23e98e9f372a4995126314935389713fbc53682942bbe18) 0xe4665ba2436396e75a1d373ab11504caf0323db099e0bc918421deda091564c43fe99551bed79c5e9b70bb907fa2bbd12ef32ccb95b758387c120111245076f21b 0x13faa68f2bce326adc6efcc334d98f716fc8eb8ffe2fda1e5d177305618568ced712c0927bd813f9a70875000dafdbfca009f4fc0e565a060a03fe0b3be35c66565;
Dbl 0x18c3be245ee71b920bfbf6c2206989bd1c5109bb5dba4ddf59f9bb94cbe35ba24500afdd8e11e7c795574dc14a41fb2897ff74b6592f00dc537caa144b4361619cd 0x1ce32d062c92536c77f69c7726aed93a9e642d0841d33fff77e7272ba376986c2acb73efb790f2396d3285d4d5e575bc0227d0844c89392a7194563fcc8533f625f 0x127794f59fe71c82d6ad80c19e56aaf33945e596b53baf5250663c92142daff3229785d496312fec897917bde9338b5da6cecdf850894290e5be6a130ff0e753d13 0x194c9735793208d0b1b341c1bc14c78711f0aedb71bb0eb57161624b9040e9f42bcf13024af0b150fd726b0ef9ec4843dc00487e261a1560a4a0a6a6c4e3bea77a5 0x1 (-0x2a6cb134664a2c61080df3a4ea2ab134972555dd8aad16359429ace5a50bd6646e35c5b5893a1c3c7725214de2585ef8050dbe90980f88f5e22a8411a0852306efe) 0x132a4a90536f5a4a1ec49eedc26c28be2d8e7c9b1893dce254f96cfeb7e55a32c6ec45ec6be4ac60fc7486859e518d5f251e556adf8dae64dae14f049e283bd6840 0x139432750bbf5e205e28bcaccb6b43013cdc8c7cb04331f47831fb72f8ed877d5556ca8e420c311b49065918838b549f03ddefb3c242c74c5289d3d7b8f92d19621;
Dbl 0x49108536a48256ca497ff2438eb3f503e2597d7a299fe2b4de863b690ed5ea48d7df197c2afef48d915f0c7764648eaab4e262ce378e0bfb63ed4df4ad1de06376 0x1f839e396406d17d80a4e55ffd80aa32d812918369e5aca0a98fb9179464f2479667f3295d8a4af0845351d61be606da588354365b194b06cc36e073df5a9a3e00e 0x1ca10b52daff7fb52398341f24d84c9239b2b7844dd56bdc8ce1772a276572b29b7a3284903e201bf3c9bf6d9c749de60d63bf188d3384e6f2fda70f655d3b0c096 0x1d5f8eccc88b81eef751b717292e2f07c6519b84d7ed935ece576e140f11a624946380c65a06a748e8df33feb9ff6ee1a9a47c4df16fee23a55d75cbed2a99b8250 0x1 (-0x48f64826136775be066d367a560af4478b30e9e28831e9bb8c22f34fce45a514607c114cd61084d6b72ccfc011f28218151b832b275320efb18f8aa5f3db0e461c4) 0xa6d36850afc5c31bb0b1bb71a49fe4a56a9157047b20bec03b142373fba5dda98b956c7a573105b5834fcac8ba951c7816269a5ae85cb828885773ed35efe2a68 0x431127d1e1a800f87d4f716959c02ca46f815433e2e1e2dca3d3d5b576762eab42a9844ef987432c2ddef12c9cd7eb8695e5228a62a9d7e68db0a064be7b12fcc9;
Dbl 0xebb32a91f61f573c299ba9de66990ddeff0f2b37e99717fdf59c76f0b1f7a33c3f98a568b7009add79e0e0447918fe7024ab80fd893e08107c44da17324a802324 0x896eb432d36bed223ffcfafd5523e722c6814b6c24aa63668dc92991bb77656ed986e6c6d13debe6ca65315d4e300329b576b7de8747bcfb3164bfd8e03c656d39 0x92ead910f4070b0a351087d632a57848610b48fbe1feecbc178be30b228769e09e3f3b7534e85602b67e6e340ec9c3175d4e57ddc5e9b0d82afc67f904a232f1a6 0x16ecb2f636d012ab5ca515b0282e6bc0abaa7ccca79b066a40b3267e78ad7bf0a8cf84bcf0766c3217acfec0470306a7bd2be8b872a4cf37192094765156d3e72d5 0x0 (-0x42bf80fa69850254cbb25ea9a6c5c686ad6f38ef893f24c8cbe299111386e63eecea857eb83e0f9c12cbb8176d5e144b542f774476f29cec282d996e6247699abe7) 0x6c8136c64487f8fbbba3646cf8db88d8932437d1b756823419577db5e75d592360ab16bcbaa7e513da44ba0227035f72afcab7d434630241ad1171ce4796da5045 0xa8da9cc86f8acc2d1a507a0f0ba4f737ee8783a35f6a048fc0fee934a6732375d8bcb3acc16fabdfecfea0103e6b7195b046c8cc9e0a29d8c7b9cc8d6292e86d48;
Dbl 0x1ad0dcf2f69a9928b521b62e03e660797f70610bfe9fe9174412c72ed5bad0b23744cf1359ba586c7334c81bba9512c682e8f230ddf896c4f4849128991a16c5242 0x18a7e02cc15d88c64b2bac639dd754f6a53f6e7ce9976012b9004111e7f62f25f6d555806d07d53b92ffb8ae71b3c9d9fd74fe4ee7f4ed0fc2c2539e5b50599eff7 0x13982c032cee505c2c6ae9fb21e5a243e276542624b5f5b986b3c95c3ea93656edd64bb556608df9562dd026db192e29d500f883ed07dad12478fed6d61f69edec0 0xfef0b166bd9360bd8d4234c377ae97b8728a639d8b34623afdc518733c14730f6c318ec000c0982d9a69a67632f36589de26d2f007f8ebff053f85f32b36cb7d41 0x1 0x878ff778e8dc51851424ac24aa0739e76bf18481a84a885388bdd4413ad2293a8eefa40e6dd9d275a291b1a78d696e93f94af9ff8e59fc4c79a4955e1f4b97d278 0x1678ba491cd5063040319e4529286a9e7009a5ff7f4a094ad86ec89f7fad34434755d134bdb7921a23e65a78affb001f585365fadc97a7045ab86e85764f8467165 0xd5a38ceb0261eb2c666b04ad30650c048d8e5dc71e5a4ac769b06b9b6d53a4bacbe7fa46ccff8c082bf63505a5d340075d634b2c90d4b36c33395c0b4591d0b3a4;
Add 0x3594cb8350274074c4f68491f37717815ba60efe9d5e90920f3244d224655b4d3f40791ba3b4bf85392b0cc6b30c2e6f4bd2338055a95df292834466a21a5af014 0xba4ca2570b648876e6e19ea7be2efdd304e7589f4447ae3296e9c174c93609186acc226de88be35a562538d08f5328b0cc4b8d0b469e865abca36dc9052c224fba 0x11e5165507c9b49ba85e5fec6a8d63767d9dcbf172b25aa6e9dfccb24e4444cdd5dcf7ab0da29b011c15f1be34f0d9155c4d0940d32a2a6f9aae80df8f3c1e334dd 0xd03160750a7403edcbd927921f4651974f0f8f2f552e52f8f91a4fa9b62ce94702893598e7f1705ed9d652168be974ef0b0457e338b04aa16f81cc1cafd977a03d 0x0 0xc3f874c55ed4877ae51c876e7751b9b6115a834d6070c1766e0be86f1ef7a521b2b40ca8588d6c6006fd6d25f3999df6f91c9c3abdc966b9902bbb678342b43291 0x0 0x14822bcd746a6365e57618cbaad03eb8c997e88fad173e4d77cf570c7e57dff9db10de5aa49dfa6cb2ffc0057c663d756629c7126074079b4a8ee22de2b057951c 0x59b7960286739462107c30df88252515f4609a853cf87c51d65d6fda675ce4c58a633b388622945d32de8cce1be9cfe70fe596b28085d4d0aea67ca8a356c7b87 0x15c99d82f8624a933676bddcdf0dbd0a6149c66ba97e43f6a01fef6dad6d81302a76d83ce4e3aabe4caabbf53ec6176cf9ccd70f24a6524963f87bfdca0d7e5ed9;
Dbl 0xe48657873517e9d7dc91cdf7b64ab6ac8ca829aecb6abb6ba55b5af3461f75a0fab28e74f5e9349a8d838d64c5f28fb347a9dcecec8c37006868c71ac6c9ac8a5c 0x8fd185a925570aece4352ac10144ca2177e4750a78e19ed4ff426fb597c23bdeb109efcaa3acd4925736641d34f59a9eaffc6283541fb5c78489d14c783d7d7263 0xbfad5fe66e6045dedae5588e5b6c63a5a27016bb2a30e4c737b84e6edf3acc6f80d7b8e05605ba52a9a18a3d92c8df6d463c3d6ed076378cab24584f10b6bc52c6 0x2a7b1cade60d7d8a02ac73e6bcea33b18d02e394cb660f5d97a751bf3173cd39b9c232a344df0ec7feeed4b35a5d8e121c4f2a87f27ed09338199c7c8ceea4dd57 0x0 0x34399278ae11348dcaa6f2cec1118a5461d2ca2ef280780e992b1ecf385f3d4a198b82b90b24d447e4d7c60fbbdb0b5cde963b20968363c3192d5d4b653f70b691 0x65ffc9344b05ad884d057114e9c315e26d011cf369f59fe4da7693138d7fbfbf1885f01a88a93098d4a9d62293ce13523f1d7c5ea945535c4053c3c2a3e75ac0c7 0x12f5f84115328e477d5ff4af738cde94ac852f5e840c7ae09c8cd678141b4294ff65ea47fffdffdffd2d9203fb611a8d20924f9d9f45e640c76e56bce1d09b165f;
Dbl 0x1aee7a03d3437ee1e9d30dabff259be31c120dd4c31780300c70b4962dd850d51762c50bf544e780adddef64312032d8aff31d43325f58ebfe7badc49e57dfe0b3c 0x66ebce98b0a10872f180030f78044a9e925e4a14da83800ae5187b18af4eb1ab18fd125d183300c237fcc7dc4fb5a803a325339c427c7c0c88acb08c936d06aef6 0x1a4b898e5399d27895243ded2aa2b67b8296fe6325a934339b514d8200d5f6a00762d529ad4e9727fafae975720a534264f9d4a3a01743b98d30c8a2efd5ff49ad8 0x28e5b71074b60279f2b527b189407f82e5862af59e5e1eca1a29f49ce8738a33980cdd6d8b79d3d01f399c40e53ff29b0cd72ee711a339bafbdd20bfe4d076c36d 0x0 0xc971064b0c252acf7a4407609208958cf7dc1c6504c664f5f36681963e880ad02decdd3ab9a7d163668b4b72c4a4bd48d46811355eceede9d09b931814cd132608 0x16aa777f0171658633522288818e2ad8d0b5dbf7620527f9b60eb13562b69ce04b4c345b77629760db69de20e305982e97730b8cd22654168bdb848c11904735dac 0x226b6d2f96b0c46b618c4a1b7bc0667ead1bc9bcf435923f344b2141d9f91553ad990e0f560bcfcd01103f6aaa0c0e982e7cd39281f1781a3c5a82f6b5014f7112;
Dbl 0x1fdbea2872f4851e56c871107ef7b9883127319ccffd26c7d45a0d76aa7777c3e0f9f26a028da0a8efb7d4de34cd39b90c58b18072b2f2c8189037dd0b1d5119ddc 0xd3a99cff1444ff3159c0f6928c151df00b26971787780cb65c5c71edf138f684ff714ecd8941d96a579a2bf0a40bf45ad57be20fd606f4e0f9f66665b9bce28dcd 0x52a2b52b8ea49fe24592fc2dca38507d3501f536c60fa1676eec033849b45e0cbf945e9bba772d0f6829e04cf665ae6a925ceb2b89bfad4f906eba0a155e6362e3 0x1934231999c5c094197bf0c7cebef2cae8737b2fd530b735488bc092abe15bb26198bc38f8ef12757e0629bebaba9b3a8cda9518c6c75872b8eb64a26d9b0242128 0x1 0x307ab315a49c69d99020a9e28296d30a035a6a30c4a778aa9f4830a987e7a56767cc5e8bc2784c32948aaac9f04b15f4a63aaf2ea0810a992cb23e59d03824ae9e9 0x1fb7fd0219cef921f28634905539a4cf4f510d3f86eab429ce435a6d6ee5c0607f823a3f59f3db6f51cd9c5cdf283d43eaa2815baa2839059e70ab762c2266056a9 0x1917b73e208d5bd323cc7b3af07acb44f447ef3e02c4a0bea58d961fed122a1a0e9ff3da8fe433897c655a42ab570194d65e69cee535ac716a3d9412654bb4df75b;
Dbl 0xad8ddadc77aa9ccb01cfcea05583fe9f8f681c5d633ff2952dfaa0ecf36d56d5ab9a24d0200ff5c4fa694aa5d6371bb70ac5add824b79c6431274f5dc0c48e073a 0xcf4dc47d6c920b6aac5b71a645d4267349ddc1f2269978591291f70fb7f3a360998a46a5966eac60cb609ebe678a93376e8e64778df7eec9531106fdcd321036d1 0x364e4ecea9e37f3aa824225542988947ad522a16200cb60bdbd37176904871059da6709fa1729f4d1eccb164b37e059c8869ca39413621be268c30fd7883591976 0x45bd881a7b2f3c6ad6584ec4640f77cc148d52560de945d49ca7ade3945532465e70827f2d32d098c398d323c81612366ed7d98480f0617a6e55f67ec8ad256fc 0x0 (-0xce7bcf11c5993f73aa4611f52593ebeda95c1e2ebef18bddc057ffd0e691ddb1b1f7c1f55b3345fbc01824e4aff541c8a649bc29868daa39615ff32ddc32c6d664) 0x3ad4843465da51c3c82513d4594e3a0545fb5f2aa8f26ce8ce0297e5c8172df87d8f960438093d92c0d99eff13dbecb6ab9a044ef65bf241403ed30463d7491947 0x17a3dcfea89aeeac06a767668ce379595518be5299f824f8b69874435f032f71b6774886c3562e201641eaa44aeef3dc26681227fd05702e8e4d92fe57debe341;
Sub 0x1de5456aa5c2149d947ca44d7142b9e5085ee409664c12ca5f6f28079045f873e2205e6304b3fdb883f8940939265892880c39e5d0ce255ee8a013a2d4b601a6fc6 0x1e4721c6eb50bd523dcd16893e9ec5c5f5cd4c1b556303a1d5a4273579b349aaadc18d072758809ba126f1bddd6d007c060f9c73ae227feafd35afc82561a12d091 0x14605aa741ad139872d1b3a6bb9244d0ba894dfdc4efe61011d1a097277efdaaca3e44cbfebefa7f599036ae394623ebd0a2453d398bba3a7d7bd375691637e6541 0xeadba80eb7863646cf8a09125be7ca13ed09003cd0693e3bb84f83b81cbf08b5bd71763320e6a2a6b8f182e090ba8b770d949d3cabcff0197fb60a7b7717fd663f 0x1 0x8c83676b58e0680debd32dadfb090bf07415d70ed9438a3f099ce6057885622dee8fb471e7ec507a26280fd3fe7938e905b1bc3cc728486b717887f9b6f2a796b 0x0 0x8345d2e502df33da1777276ebb8b39c6b79c2a0e525b0c108b0cc47e9c99e9106880d6a8e7becb55f76c5cc21be865c8338c3785fdfdf5b047c87e15248cd3205 0x1bedf87b69697d6725cd53c03f323cb0295c4dbd1de93b4df75f6ccfa797e0d7fbd2c97ad204577f26a87ca4cfeb26ca3973ead1331ea9bbb7574ed0dc1aa0377a4 0xdb69c1b05a2c6ba27477d8d68a36fb8343c4cafe8c06b0374c379532f6eb93415faf1c66b464d4bbdab5ec08b6677147e3293da4bad65aaa0ac330b4fd771f18fd;
Dbl 0x4a3987c81edc561cc0d40d032893ad67ff78cc654fc8b8d6dadfbde06d22c8f2a9c541b412f0e0bb1a15dec0b6883b5a48e5136fc45c2e32d18ed2cc4e2fa8697e 0x980e27e8bb4b707b52e6d5a7ea78f8ed95654ab01e98e31977db1b484fb1c3d4391f611e364c5f222a10d234b6e5ab16966c57378f4cdcb8df8f42564ee241f340 0xe4efaa9bb396d22b3f8b3cec867dd33b1025921fca3f24a2fd2ab1c28945fa0b2ee2f80590cd31d8271e30637ea991412e52c6ef90796efce17ce69ec49c3a162f 0x14c63f485f9c064a889ea92ebff736371c76f770537975703e267580f4b82d6d6a2f96f543f3baa97e85e49a91fea5ca9ca8d700352db21f6f3cbba2c0737d0dd51 0x0 (-0x500989e1b8f49795b624e33ce4feb587605c6d0ced64fc9e424b361a75a8b05d9f64d9adf64175999d150525fd3f5b5ec415d4280f9befefa89581b19e80bdb279c) 0xac2a7b6b87ce671cb8cdc09b5bfc805697a28bd7ce085bc942a4f3c3eae576f06d3c1ea12d71713cb514707a02bde45c1cbcc0988f92ee79feee2fcac318efa5e 0x302fcb9e5c10da55ba50a06cde42a0f55169b36c98da6d6ae3d0de9af8de11f33f8f071fb52937d57784d715aaec150b99810a2f3acfaeea0273ff5f82bffd5492;
Dbl 0x1fe1f8b2ec64edc60d653ffdac8ae952b61b2a96d9ececfffae8e207c272abfa7eccaf6fba0298ecc02a8b49747caee4cf1134a7a5f1b68df9115935d6c2da34356 0x17454913993b6cd4421b4d5347d5069cd63b414a15db107758281b5af32bb9934b29615e4de5181f992e929ff260f4aab7662963f66780e45ea541a59860a101737 0x156131455ef2ce1aa84a8f7960fcc4ed85783152633554c9a5552508ac628c9d8621184d269611dd8227235553cbf80c64d8f062e41d6e789c54fe4882654319917 0x123b996af2794a337313200736d288f2031b1360ec0e7dba3f55965991cf62a9f86894b3957fadd289727a83590d6606b2009c0f828d4ce72f53b27fcc8d831dc08 0x1 0x140b8731cab8a16ce20980d66f4a5e8a663ae2d69cb897604d5ddbb969f86d93736853083afc8cb90f78b7f6bf83eb13558a9c12646d158d76489536723246a2e69 0x1fc40d938af9108885b588440606f6e936c3886bd98bc2cbbb148750064ed94afb21aee1fe8f570460eead71ed683f13d4b2529699fe9d4a2d2d90aebc8c159dcd3 0x122a7d622a11abf2be129e3bfb89e70d63b7d93eec14c88f8a357975b57775d4029fde744c22ef530b022c27c102105a7fe9c2dc197426e9868e1c18410c1fdac96;
Dbl 0x165fae73aa633fac0fe40e0555e0bae21c154d26f5a71cf938eff14c12100d60f0bfbf78aded3b81d68fd7c67ac7eed5368e618974df52f944b22a28bf86723590c 0x1905b61ea92441d3099f7f995b68d627c7965788a3a111074238dbf3229453c5ddcb496d6da3a51204258f81a3c3bf67fc9828e739a00047373f6213e10c55cc6ba 0x1318140c55bda7baa84d1cf8b6acea1a23106257cf49c7ce3b34510b883da5d394a305c8dea78283647460ca44721e03cd2ad9bf25b10609f2a54008da5ca3c6418 0x1e3f92f4f0172b01387bcdb9ec6c30750ea4e9c17239ff7015ef3f67d09765cd6d5e17f0e041730d9509031e4e9d3542bace007cbcc7809d2765df91b7544b3507c 0x1 (-0x14df0f40727fa95553650d5063068b53fc5f52c6c51030ce0ddf6f4f3308d7bb3fa1ade8ee485a1cf5dc80986f9e4c116f137927543a283cc03b61c843d20718eb8) 0xfa4adf69017a3e22c807733858c375df8e53534cd0d12023ac55103248de48842d5a4da761f2fe61ff9183b3de2946cf882ac6e29289bd54d45a68eb53b93b9c98 0x152626abb0d439a8fedd54f51c397a7afb2cc002ee916bebf681dc82660bce35c64982a95c53edac86a15631f775023c3572bd301fafa443d37611e3164aa171b5f;
Dbl 0x40153578e7400f26b361ded0ad41a5cd12db65da7dfa46b62ff3363784dda9d731080e328a1110db5c69c07141dee9e0fa5947b1f4a5ab233630f57530a6fc9c12 0xde664fd4b486c87836e86ce39f83534b1f7b2399b4b50d36ef4ef381afa859308257af4f42e2e73c9ed24b1a4e33974a0a09163e903122a00cda56a0cc142395fc 0x1c733334ade9bd161bf28241201045a2b70118124e92bee409f0d957e264c0d50fa72f6228db9a840aa2e8d19dd9065656aae628362d219df43d086eb76959ff2dc 0xb1f51215ddbd54b8630f8cb2170a0f3159ea54f0855c033d343ecbb0799ce32d5a5ce787975769e3a386acffee085f35bf79783509cee1d3671bca9d44b13930be 0x0 (-0x35eb2ec4dfed435ecda636e3602a88fe9e0b174f76282ccf706a1588f080becc95f36fe8ebe818beff3f6c89b4680f7d5055a25c6f194725a7145915b511dde95f7) 0x8054e3f2250a077fca1a1b2816d357b48926e2584450a1ca15bd9ceef12daa105e5b4455e869acf41e0441b6fa4d9585341a65351347ce77159d58e82a447322c 0x16460165ddcd18fe596ec46681745ad01b0c14d7192194c1c7b801f62ac92479c8bd53b6311168b7d863ea4fcc3659c6456d4fb0be57c795fdba130ac1e11b2198;
Sub 0xddfd133fafde672315bbfc4d55197d5c86dc0abb17e4a3d853b93bccfe7e1ff7b9f809081642ba14dfe3dc9ee0766ab966e54a682a59ff997e6b6596056185e61 0xcea5683561a0881501b88a8bf8c41017f9a42c434e6443f3af2dfe81b2e6441248c459739d170b72649140b88d523b618e98ef27864626b32decb9178adf0588b5 0x6538e69d98a176ef8a8e786ecda072386285197166bb78e04bbfd182b49074d0dbfa0810ac5fa8e8e46292b85282e3ed8a335abd2c24001320ae7c4896e1c107a4 0xfc0e79f52e64063352fe257a6bf433325d6f7566650c9434020f4fffcc2151e399355dba5cbdbca3a410a61c0e15be87b70271709eafbecdeed9d8941351e0d47 0x0 0x17e0c1cdfd82c38e694a2e18395fbd96dcdebf187bafcd81cd56cad24f3d0bf2c7b663f0caf2ffe375d42d59269097a12bd5cd8aceabb85d70e0d8229a513dd896 0x0 0xa5a511cfdc365c8f07f2ee801e1429e668aa09a09247501959fbeb36884ad394d8c7b7b2fc35bd8dadb3d3edcfe2b571f2690a68092d7e26fec7f6d1056b3457 0x603f76b5817d0fcebd3ba8f2e8efea665ecff9d61e9fada31a571ab2943492394de351d9eac94b3bac142f7f27207f8894f315c86efb390ea1c79a0db5137b56 0x6d48d6457c10a3ba811c7abc53020535993e1a07148e39d286054a37e81da5fb5193ee2028c1ed24eb23e555fe6c94a02a7ae666b75558b43f9a83f03575e099;
Dbl 0x1bc20f5185df7a18f42b73da9b1e938d5484defb86567beeb25106aeff90e6a53708fb9530be21c0a85cceeb3d0001bc465905861cfec036894a4d8d7592b6aedfd 0x14cd22fc91a98bf509c3d8df9dc9c18735a1a8d4dc127a45787280e6f64514306a9045e45bfac28b7f05e19174cdffdcb3716bbdc1295afc018c71b20d8b8a72175 0x1d3487a6c95cd9c78796528caa598bf486090f664c94ad48e0c02099dc913b9cd1452bd702926aaaa4e89daae04f01abc9157c4b8c41beb4341097832897989d7a8 0x181d3386c4707c8c4657afc921c27f7a49f899ef58d3c9f9c2805f0124e95010b9fbffb2ddd6ae2ba743327a140723d965782334b73b076f315259df6b2265e673f 0x1 (-0x4a9a35e0dce947b97e41b7d7f1178636606b98133c85091211c298c366fbbcfb50bfe72cbd6f17434110bbe90021a77f1d6bd6692c0be6f0f5835fc46329465240) 0x181412b355b590e3f87b2539744689c241482b386df51f9538c98bc5833263307b943eed6652aac8ceee9f30a5c5c229bf6236768b5a5cd3e920a27c76785efc6d6 0x14eae00d35b931e8bad5c2f039405fbdd77029578b0e6618bd044d6e75f66172e8be80f6b27720f1a0eb3acd7773092a1e90b79b614affde670228f3335b5538309;
Dbl 0x196538cd343f094328b9fc1744dd700147aff83fe20f794bfc5dd93450446102d10a19fed84aaf03218b2ede8d0c71e2a188a036ad6199081fd47c7b109f7304c1b 0xa6b3e4981d3bb29b9400057f504b5e7d9f49846c547cfa889d4a8d0e159eadef7a8bf6e8bbbf3b479842b5d78200b859719b79ff62f02c268e87694e7baf068931 0xe71a8a647abec1d982c69b0424043292567dfd57b51bc81c93439bb0742567421bdeb02b02793f5c25b96db161db0cd98398eb2d2291a5d6db3de4e509707d2f4c 0xa61e4b30fd5d0cb5083d887a8c50b9f5bad108e16caaa9cee9dd81614eb295172e78675d03eced70581b633fcadf4571c57b41dcafa583998a3fb1d25d09a09844 0x0 0x5ca2aeef18b91ee154dc7284a74dbf553bb155dfe6dee4281f361ea0e0b073abea92cbf1aa6c17b5132c3078d8b39eddd008c6018fd4f96edd5c43d31e06f0e0f8 0x142768ef95cfa725c4f2c5372f373375fd27c1481f67c838b824b9015bc777f5d8b8b9ebcfc20b02414cf325635822db61a4dcc4067b5f823e0b054a44e6594c142 0x83d52139dd7042c04850de721cf741b02973497db3b8984ce73f0602102c6a6ddfe90d15ec0ad2db44f1d1e1316c4fda801492561abb58dc1cf6a4297d1022c7c8;
Dbl 0x35bb90ab0a51bb2dae1b64d5284f22656b96375bea3246e552f236f7f057a9140070b5a245b13417c1201e097fc35a777cfc471f9a130e58f27d0ea471494cc9ef 0x91b8b3b799258679b4f5b48c93dfd994ef13840a75facb5e0d73ab8968f76eda7af2849665dc2a31a2f187c01822c11e4b87837274dc3f565eb3f45b5f11c4fa15 0x14d042ceb538e51fd9ef3afe06abb356a7e0471cd810eea57710bca27d9cb398ad5f6df3e1e1729042678f38ed4dde76abf5beb341d46336b23e93eec996fe3aad1 0x14fb30e084162c21df0a50f2bc6b84e8b0360061de822f2a8fd6e184aca73f14ff99725255e31115f5512e1769ddf73b2613f68cee13ecd02fd374f31c9d418f1c 0x0 (-0x7252deaae36f79f1a3e0eeb7dfceb02494ea439db52abfa292021ac57bbc4b97db3de74060e09b9107793b3f5b169b999e42a4ec5d279cd0a1e502e834e9af35c8) 0x5a399a9bef3e4658d80d1b144c01fd823429cbfa82bd9db407f1e8ae4e8a25d5c33ab5022e6027e04253a0e8d8f716bc5df811b4ec4d731fa192199259ca0df56 0x233b03b3fbcc32a357069061c148a98c12a84813feebb2c57c331fc686e8e4f8b7f107e2edd2e3aa2c4f51b99d474c9fc76fca2d53d640ef8ab96e5d21e7f42f9;
Sub 0x5cc35216bfba7c312615a90b1878f60abd37cbcefe4bc9e711a71fbd8bea62523c2f9fe92d62891a40871d8e10029cff8aaeabef17f0a43184c7d00b2e36f422f6 0xd114825c96bae1cd15d3e1e7701b3ffd10a76b050dfa3b50ebdebdb3083aab22dc4eaec33000c79b84e0d7291831c3d0cca6771327bdc03f646cededae4559e9e5 0x1c6a05ebe50cb9dc79570205c376b353bbedc21db962f6f292e722a08c6ea1428ddf502d430a8406a1c3d565bcbae7e2a3acc9813a4c157576089cee3e33a325d25 0x1c0a4315b026aa4ac9f21d2a523c49997de6c19056800900d2194edd660bcc3b79ea3d5d335db62961e10b096fff0fd4d7ee10c5f4d1e7f16fa47066db0cc6b102f 0x1 0x1cb3325b0e221818fe75775c12dbc43e0ac771f893cf58ba8eb7b82da088c219cc0513937edec42d879f369fef07fc1756d543abeb356d513c2ba75dd2d4edf3cae 0x1 0x53325e603bb0ed626e5cc168859981e13f935e9901ea9c982be03a6848b80d4d8cee6e1b7ebbf1bd712e62223e582e3a67e1d266d45e57d8b6ec704e361549a5ee 0x10ce7c0341645a1ac0ba1c40fb80d9608390beb80ccbf2ade8d25e91083b19216651883f731e8405372485a1f755cb0b4642711fa9ee0dc28b10172b44a84e5cfc 0x5148a755618ef06321cbffa021593ef7cfa55bda2ffd52b7092498f9c57724d2150bd54358b7ed7ca139e602dd0f4418ce0c4eefd63b016cf67c8e948aac423ccc;
Dbl 0x8c0f9362ffd0c82abebbd330eac02b00381663f05301c5aac8b7ab517c36df212f80e9d8943d0f47523319144221a76e29a3465495059064582998d304d0ea28ef 0x294ebf5fd5a447d557a234ef5cbcd7571c78951ffa0b57503c2f455eb46962d28a1abc180cf1a0c3f962a352e8355c56e1de894e1ade9e85092d59ed5d1f7fbf1c 0x1456e937adf2977d9efc7394d9e0c576bc3c1eb6be8c25295b01a9ee7446dbf22f81c8d8050f2e4c157fe3855a6be1f61f76574c9bdeddf9b6514c6276bbfeda221 0xa7c5c2fcc11699f7be31acf8135e68a5f42ed5e513eee400afaf785453d148505233f2ab230f26d78b7e33d62ffc6779eac7edc50cdf21ba5b3f94005125da2ac9 0x0 (-0x76860cc2f042314f4ffe2ec329aa2a4809dea39f1f1dc276f4a011f6cf883337a4cf4dc126b2b7f7dd8b2b99aed7c1334ef124bbc123fc4a3c444002b1403868e) 0x26508513712096bc6b7ddce8836440da7a61ce4bd3ad20e8738c10ed6e926282a4fd023c7a6bc0e5cf04d38b24b1b27801f90fa3d397b41fdbac1d2e8e6ebc03c5 0x2de52de80b5d229f8e089d97b663d4e57d3bfbb0a244a01186cf3bfe1f220463b9554caa70ecb991c029d7cf9fd277e2258a5ebd483af4d128e969df502108a59f;
Dbl 0xd977c17ffd181a9a3be5ba833716c3731dbfa357f0d766d446d38ae68be70db24a5f8320dd66d59e4dc650303ede3074aa4b70e5a060be909aa882e15196637340 0x7b04358cb7b5209fda6cbfd532f7fe6ea2278a87cec9da5169960c8d91ae8b8b903d0c1b8f31e871ea163e5526cf1eac42593f5fd34714acfa15a3afe502f28c7d 0x99c362e75769124aeeb20f8a1f755bf71ee081b7aeaf5ba4fe2af7833369f925e2e1d0d41960a5fc13b56139a54a015034d3e562c9fb1f2ae9bb53885564fb56f8 0x1ae4a89d31def27357d35751a29c4d8e87a510a982b417cfed29938d122bad746f9ddaffc7dbfb8520f4c64fdc1663daa9f8549ee479789d80f17b63d781c8d329e 0x1 0x10a737d1bf6382d52b6f70230544e8c0a751478c32f6cc7dd9d684edeae9b40587862d514358fdec0bf777513292750a276b85759181ad48c7726669c245557aaad 0x5c5e1f083929328ed2975ffbc24eda4a7a430df618ff5037cfa4c38e76264e547acbf74965fdad0e001f26067c6f762929c60caffc6d73456c0f796a6dea8f7ab5 0xb6c33c5babe6accf0b8b8e9841cce260462a3bc58ae41110db6aa885272baac572cc451f335dd43ba60f0e2d4f19fb75b8d9e8285093a687535859b4a56cc55799;
Sub 0xe6a555a9ba00a1c65d5c91d33c029f70f6c6745eb95ef05902ec76d4ce62e6b7da01f4b2175343a84c834af2a656d3d3ca4e47a9b096770d168f2dac145251634 0x6301ca9a5eafa7120fe6e6e06c1c6f82de4143fdc4140093986957029f1934cc8f6007f3c11c38df63326cf5c5e81b928b445c2ff9d98d1abef9faf783ca29ff76 0x15b884e449bfd239693800f5e9cec825085918bf40d37f64d025ccd5dc4310fd0781c40615e0660c8898b280593a3c33cedc69fdca1b432866f4fa99514d02cdb8e 0x18026af25905798dca85d8f4c6db8eebc3e6468a0ab5d9bdd12cb58af29556bf00dd0427ce15af9286e3d15f60e70319b714e32fd96d87923b1ba8b86138c88d07 0x0 0x1b47ea78600b11bb60cce8109ccd468ba5f8b260695c49a9c479de3de31433e4dd59bc0bd17420118c1182093ff2c1f036425f6ac11c1aa6a5e1c2531b3400ccf16 0x1 0xc4a1d919e82f602575fbf2d87c9dfd60476acd63fffec07fe3d62d540d356ef95dcd0eba2d876c107ed9a47c9534fbc3299804a6135e295faf6460ba10c38c8d1 0x67e6c05a41d686c6406f762b768a3fd4b61fd9a55b179a551695e73bee178995a1802471fcf70de0a74b2229c8ef7ee9ead70cfc6db5b198506417db1b0d4ec9 0xad0d6d6b15d97144370e396ee23c944968a96cd17d4c5a9bec8fc3c1f4cdc604bee16de4d6b0973c25ddef53b3ca746a021385384fc94aa4529bc3832b49f31a;
Dbl 0x840e8c55c92052db0c0126eee61b68ec29291b5c6a112faf3286d89c845da4d9f4b3e61cc6bfb2aa164ceea333fb2cd3ee89bad7ebb559df8b7847a9b12a00b8b2 0xf622d12801dca95c5de364a88cad0035caf7e2e3384405eb6a57db285b1b01654e6445766e545e4c5cbca5f80822f1e23c8128fe475fedb918dc34aba55492a31f 0x70b0347e42255d10f3fc3728a7c5a203f54a32e29bb4cdaee66de172bd17c7f46b246883aa3319480dd6909a4daf6567144b0db8db524bbd70c8ba79327142b49d 0x16cdef9725cd2fdb5b2038237df6f6f4d1349611a8bcffaa82e117bda43fe336740fbc27d52c7da930675c6fdbdc529b04ec33331b2799f61a61dc64bde75975c56 0x1 0x79d67440c01b9a98b225dd43e38025b3ac6560e78fab5cddd201b3e68ed018ed95e59ba5604e59c97aefd501e1bcdb9740b4c9bec0bcf45180cd1153d18e2b6db1 0x220f80c60edca2dabe387087529a3a087ae399fd52ee30b3cc81045476972800130aedcb1396b73af95471d6124eea027e9d1ee10c6c93e3ad6daff3edfba64647 0x5e1bda6a689d2ff4aebb441b1ffc9facef853e2ddd42eb5e204e113bfff7c9f6990cf3354dfb30bc4fd3b0f1969065801a458159d03c148321393af67897d38c5f;
Dbl 0xa312ee0d9eb0780347fca62bf8b44ace833edd6e198aa7ceda62f042d6eb6c88d89cca0ebc7309cf1b9850ca60578860365297127a202b5d4525b56bd987af3b6a 0x10ebe5b5f00df31fb92d681002a2e7264951a7456390ff366d197d8561a22c587794fc88550f197930cfad5a83312059c9ca06275210c646c70967bfa5e1a1df170 0x17ed505d8f7ad8c91b9bb1cf1535e442cd29b567735a4fa4bd848d1277c6fd03f40941b14455852e280869f150a7b3a5ecc30c4152b185e99acd67aa9f025d5ef8d 0x1e76475c900fd7760cb0ce3a8627e8dd135dd6e8cff34128498c002d240f83bddd5147cf11d62c6b94fc1d04fd510ec459fe0c6892653894ca845b8b1473a74b1ae 0x1 (-0x11b31df75c70978ef96c61b00a54e39fb17836b8eba868b8386a3313953aaf307c02ff6662b8e71863fd1db3ec1ba7e742f7a934ebf14964588e85984d2a13e76c4) 0x33f08e45d7ae2eb756c9398ddd948fc7307debe31368be0677eb88abde19defdf077b8d28aa51f6edb9fb3a3adb689c52fe593635850c0be43dc59b358ae8d2fca 0x9b3c80a44bbf249b0b98901dd9c573972aaa3195009bef9020ce477a349a5adaae1f902206aa1d657e6ef36c9d4365e4e7ce1666785ea96bbc57277b3545e1f81e;
Dbl 0x20d762b1d2dcc96fb82152a6b1d1865d96476e00e58434dfc892d6780374bd533e7370e1aa262e58a52606d91047e6efe811af5f4e06840b12d1f1a805252d5ea6 0x160b2dc30338ecb280c90586d4ae1a017a1ca6f629840ff787997f6b9bbee4822c7a1a32454849097b3fcd68bb9b8b5f4e70d3e8128b7a34e24da7f8549bf86953d 0x12b358b24b12f88ace786f78b247df541907d27dea3d2bbdbbdc4a015f61ec4cec6788b1001eecc62b75a46210a0720773dd8fb31cf2aa8b32df4d5c85eea9d4ba7 0x1ae0b7f2ecd5066d386462892df4cd24cf35004f3a0cef3ee57ffe19c5e347d64b1ae2560fc6d06fb58fdff1c79594fa7b59323f3f854c11e4bbbfc75145a975c32 0x1 (-0x17c646831ba2c70ab7c2f51726a9b91e777edc1354698d1b7611605d998e5d8ba76c84a90a0075658ff38d7fb6c211de35b1654b6c9b03ba8ca21f9dacf21b403df) 0x21b46f1b0ba01164a73557f61355f793a5e3bb99da04a216fc9a3f588bd87ed6bac12b6a02ae8b9c48c8a31fd9fda296a0d8588a81e0dbed0c185c2238e682479 0x1b95a0ac6469d3f6f61791a973aa54fca5456b656786060d1a4d8a43df6f666f9c26561e4a99b763f7a66e64f1a25b80a3e19db3a55aed2f4bf66ba3f04fa916c8;
Sub 0x188e720c424c25c61b46f7bf4fdbb8b287c23b6dcf8b56012d4adf5c5ec60a24e37cd188d7dd12df44103a86798bf3e42c30b81bd30b882c8f2ac744b294ada0d3b 0x535304e602f514bf46bd3e0d2e953940036f26b4300901bcfd57e142b4d61c78155744d90e68f27565f3ac84a6c874cbf611620f07a652b627b225e86ce18ba15f 0x14ba0ac59143a2246a8f09b193b17a72a4597f7d21900ae7193be973fc34fa46667e0bb4fbcb8c3240c23ae413e319f52891d7973c8be99730e88e6ff13ac0e3e92 0x10d5fd74a3099b668c5d31a601c4c66d79e5b48ae6837fdbb7c40157707182baab24a5e4b461b9e224e092a0712f04128f0fbdc7221115097fd28599cdcddfaf3de 0x0 0x9a2d4e297c8ac63e3ef219a1e4be0a635f2e0ae15f3bbfc3579fce0a5b82fae50d0057c5dc94a93e8afeb8ca9215b64c08d9f5cd6732390b88e1010717fca0d7d7 0x0 0x765049266c5e2a898b3abf00f3ee1d265338b52d6a4e9f8ac2d40ecf886193ea1c694671e0331af97e189581b2f690b8152fe8a9d9aa133d89c51d54af3351086b 0x12d8252826b5f98936b731689e3874201d65174e33047b414616803e5bd8d477c6cae5af667d7aee2a2eddc779fffd61b4afa209e7dba7503746d3053a1becce869 0xceb6facf9eaaa980a4c671f2e50e14185508e9e7cbeef433bde913abe2b62419e34907305efe73430371746853f48d7e4ec080109cbbb5025c7ca3be85d867100f;
Dbl 0x16ce555f025000699bfa80d09c9f93e1615c79c131f3f4a53b38fc345a9363623755b85957f6d9fa734c872b31705880944ca14f8d4029a1a483f7dc1a9cdb9b97c 0x845bb5ed84f041588c172afdd1b598e5ab2dfa87493c7349129f3c60a25a6158da2df7ada5fc1a0a21cce57916bf570f46f82496bedec8a2577ed2d3b8e8b4e29e 0x42eb7c5a2f050e3077871e285cda5792a0aea26f6e48145cf025563b998d2acc7fd6cd56ea7778b9afd9cb8a4602fe2b4359564ad9076ea3b1efe924bfb1f12417 0x1cef74ef87e04d366baa6130f5cdfa05a58412c2ce6cc8e73eab8a4e2127bbb1f3b294d2b686cd86b4426c70b90091dbcaf193d7848c78a13d0335314b3f8d6bec0 0x1 0x1b00322f6477de9bc851f04f7aec0ed5adb09642f24b1ba5e46f69b5bbfaaf529fb20d01bc20a46571e7f4b9c58a39fd9bc8ad1bd31b7e8cfe87b417aa15b684250 0x1040e7ceae2d9cf5438ef219847999c04b9adfbdb1a8096330f0193a5e7f64096d040154a567a5dacea168073bc3d7b4c24e33844af5a82bf6969cfcd0c782fb14c 0x149f33176afb9f60756bcc5e0e3d931d5582754bc6c0224876e1ec67ce68cbb28b34a1cd44fa97f5580622513d00bb25eeca30c222b566f90fceef697240d623da9;
Dbl 0x14f4e54786d5db511f3a2913b4e67ee4a9ebcb8929d235612eec317594438c36ecb55018899344c35504a1aafef8776c6e565476e6e585dd723949426f89f1ed5fd 0xca69bd9ba6d8c081e625fe0907afb1738df5aff3fdf621789d4a2d57820305670f7a5906adc7cfcc2b449f02b5dd8d580417243c8b97f15325ce1b7ad189a8eb67 0x6d1fbbf6eeeb3d55af9aba3062373ae6825d8d3c3f15fed8a0ad976b406d692f134429167d325953ba37e0b2542d935ef47a48d6ae26fe03604f9d10e75461f248 0x1b9f1f851de1780d6a5f12cf4ca05e7721d384a934b4651d075550f0920575bf1cab39ea6f8344a3df688467660e1c9b742e1005a3346d74f31b0b758e75f0bf736 0x1 (-0xeff6d2507146b302c526fe0828e861013a375b64b6b45f2802268c403934d11b5dbacdaf3733077d635a36d4f7f5d60826e1014684392251d0971ebe07fb18eed) 0xdb970c8561be92b5c3fd332f93d259cd30b4d528d08dbc42d00b2bf899978da08c41012a4372c350149f858def99beeea26675630a1070bae1010c1a8c3ae7b49a 0x1216d6ec00b23be1d8cb13064e6374820fe531c665fa9ec8778755a457d8a8c783f4be96cbc9df627f0f293f80faaa1629cd4307fbde6c4f8c1f0b3c4a7a07bd801;
Dbl 0x113aac5a828b25201c14b8b558399aa2207e1ac051b443f90721eebd4d01ccbbcafafcc9a7fe1e0bcfca6589e1367ac39da7768852d374908a1399665bc2b473909 0x986e8f83fe835f53c462ad4ebeb9aa6c97ce089cc62441e2df18105fc3a4cbf54c839b31bff9eb7af8b81434bfd479610572d46efe2e75c148f7fd6ed10a8e01d5 0x19782e8c98ed67f46db8d3e7965bdd06c35099c6b2a3f8bb463775d66e4673a995e7913dfbb55484c5004cd55367c7ba1805ba6b401f45e9d3d61677f72b857437a 0x31fb2e17a855612e21c350ba48f60706f627a75737d1df95be321cf7be5e3971c2f6bdd4edcde451328c8acdf60913f6fea44fcd8d697b91dcd61e0c007f1ae992 0x0 (-0x7a8eae1be7af7d81dbf86165d16e69a2d58521311c3e69c9cf61c7c1214059bebcc27ecddb209f0d58691c89beb3b0a070cc67c4e7e76ad1b262d84287f7c44ec0) 0x946c2b4931b0b30e492bc8a8b782786920c07026d653ef67c624862dd8d57d1141b680f3b565c6585195ea7da4f0185115f11a2cbee9d9a6eff0ba8442682cd652 0x1ae914f392650201e6f9e1e3b0934b1870a9d92f78e2b70208b04de6a567970d1b9da2840f4ccf236734dc98390d06833b77f2ecb95913f6b8bc57211e49477da0;
Add 0x151e82c8661dde6663bca62198f9b8b286ef0c0405ed2f3d3e89b0472bc8b32581040b42f23965e37f75396c0fd18a665b713d3b4ed2316d7fadedefa67c91fcba3 0x22609542ea8f2c6da4b0cf6aace694ce5d40271837a7dcd9816243a5a6b2876d94665fd22e654c791d5dd8a81c30aa659babb2ede5d297269ef977dec1f715bebc 0x7ebc1729047ff9483bcc332c08c2e611c74d833ef2b07e3a2e0b1f3b1de813b83e3c367691db1a0ffa444ca3ae517dba9cda5ddf59d1641042f9649c5006ca8fa3 0x760dfa4113f432e61fb1dde411d3159e3a8de1848e7c65095db5ccba1cf24487b81d3b5f91949f01db5a3b8ca3a3cefb69c72181185bde9aa9fe85900f13784319 0x0 0x1d1e9017d477f5a69f6c46e83589614b85531a41b8d1f022dbd1fe7b063397eb791e24fd3480a0421cfb9f673983179b8273f8bbb3ca90b7eacfe7ef09f47a8446e 0x1 0x1337d2393f17e722a7327f4bb6e37085f072366df91b43f389b5b8b74e5afaa4baef288ec9ece7f8db90cb6dce2862cd7c6a9c327b309d0e7fd0f8fa86262cd1120 0xdf028be5447d097cd1d0bacf2c98e03a4b41ac50343a0caa06efcd42954d35a130b6167087f9fc3b335a967f97886735d454e9a6a6788aceee78eca0e1db13942e 0x4de9bbd16ada2cf870c8460bc8b70969d1450728765f2cbd6989a78680e9c7bf412c87bb6910aa4f0e4ba7f88b262bd6334b00392d85a2552ef5d13c6b3b534732;
Dbl 0x8a5da64dec2b8d196564a5b632e7f9c9fe196f000769a65b3387f850a106c648fbd3bce490d00820463093f4f46d51aefa3a0e345e523a3f593b5badfdfd381c51 0x2e98aafad296294b041a521978d84862ce5d3308e15df3bfd3924c5bb1c18984d60a38349049d89afe8a2d0cff8fdc97d522fa0a3a18fa7cf53dea489089bf19f5 0x121a660608a99d85c97a189d0e7780290aaa5d9dc61da775cdb5a57af4a8c9d91d2fc7c93815c817756d3a738ddbff773e1547d10f6de7a9e0284aa41da01646607 0x1f3c7ea4817f90322a0967d51340e4c6b8ee2f40f5649e919adcff749f4f0fde8be5c279d9e1b73de1ed3ab9b1ca0cdcdc688b8e3abb99ca9a9bb8d96316d56a4c6 0x1 0x3d930f03f98ec5595e519fd728499efd598ef57c8de55d16806c2da2bc2fa4db4cb6d65b7e8acce0788f981a8ffc577db33076fd66758467a0e5dfe34941f04107 0x25648cc721a2d8e2266a290ef0fad68313d05ad4fdee6af6d22679498218a53ae5b71c12f7d559a09e4062b08d512f3928ec5a22b51af614b3679e9fb5f758c5cc 0x87104c4b5d9d3d337e65b262518f4e1c6cf0ee5c787a5a876426042207693d0b0ac3bc55af5c313fb266ac106fd9e8b432ece463190f88cc4d2599bf173c6f2b04;
Dbl 0x1374cfc12d888b882394020b0a1c3d0fea1617809b6b4d606ad06217c2e9e3b49b149541161c5853334056e4193651d58333d8be44beb12aa0fe156e77124faac6d 0x4a7133a2700ea50827dfd3c96f47b8fd78136754bc64e609503b1cf818cbd45832d8b1861a3e6f61f3bfe8160c7bf2a09d0f9a3bd6a3198931647cd292a9145620 0x184e96cf0e07180d394ad752f6abe2f2371239c57a97e0de990ad08c37b6823db4f29a29808165eb9b461ed7348ace473e295477168c21626549dd6acf38f3e293e 0x1e427775862878442dc3a7e5009908f655649cbb424f90db683572f6398f5b52ca33186ae760b69390aca44f6f313e9f738135fce6375e0f3c3d96d75fde0aac3d4 0x1 0x1537f64f28f03bf526065044bfa51c3a2450f89733b92e4aa83b4d7f0a63e82e9c6739171799f009728fad3c0dd817c9e91a1c8d8d1085f7139ebaca5b492630372 0xbd4611ce36c0ee9525069073979f549b19ee302b0036683b501d84d990f986c143e851f02d528080ac503d5091ddf912e617746fe80116ac145f44ff85db8be3a1 0x1265ec53725da92dcb8a6386db488e06b75b16d9677055afb655feb8b4fb1904e236a19bf88de0b45d5903ca2cc71cf103e300d3ecc3eaeaeafb6ccf7e11f52be01;
Add 0x167520ac9095a83da665915e302dd180c8b36aeb1c6a38e591539e3f96d4ddf4c797b239150df8d027af3ee70937879cce19ad6adaff7e3a3fd77d7ecd3aa2e2cce 0x885a2a400b1a1a6987afa5a9bb38d31c1590037f464fcb3773316cd473cfa773339f0e1965986d1bf45123a07c366c381947d13a8fb0c3247a6a409c7e54d599f6 0x13e365464cb6e1f22beee687a5f7a6ee5410639b9e8ca13d91e6a09cdf028db8eb33c191212f245f0589718ad1a6b69eeea89d448821b2a07b33e210a90aa7b3830 0x1c217096264f48a9ea0302e1fb40ee5e1628363d576151ad1dd09b023a4fc2ce4ff39a36cb4a60245ff6ec4759045866883c7c90146f25664b6fa3c3614543ebc29 0x1 0x183eba59bb90aa01e5a4194fe09242349357702d3835fa6542e42f448b860871a78376627a24e8808cac1ca54e4d8f2f7bedc5188151daf46956afe5460e62e98b9 0x1 0x1103de38821845cf3e3d26704db093e0f23af754000455ebcc88f8add9fac91233cf6d4b7f34376404c9b41fefb1a01145107fc915a947137b2d419d0ae68701210 0xfc2b9a4560bd1732e2df83575cddc184ad34c95bbc2575f89a962f5f9d88c0b8c827a552881b8b113e1467f6d87a518977345d7ac944ca551de65ce5d906f037b8 0x13bdf46402bfeb715992f92b8644388d98de14fd22c8aaf30db01a68c588940e12f94f21946942b029ce7969bf201b92cf94bdbcba22c7e72f5940606a99d88ec70;
Dbl 0xc2155df9a1d156232ebed70368316064b054e0cfa462ee7173123ad9314a729936b36420f29f67110d32816227324d34e01dea25823e84ce0a5f425be42890fdfb 0xc1952e35a86177cbbddef81c037502af8a4e6251bd6159451a6a3cffe32fb2a01efbcd8b3b09169fd780c9254402962f1e533b25c195cd55d30106c2c16c4308a2 0xe0a9c6ddf5b37f34d46b2213fed111bc59a9954a89e6b30682a20df55555013ce84becf1b3fc29fd68e2f0a160e9ee8c7278cbb93f1f5457b4d363ca116b7c02d9 0x1c6c4fc0a62b8a29dc9d0ad8db7c3d06c8b41a12d88ee71f258c72fd4909ff4d314a3408e2a8f567c1cd05a7b3833d608faf49614ce1af5cea76939d9bce8929153 0x1 0x844fd840ab604af2cf3947a4332f1695edc97f1ae285f8a9996cb781b53f7f588538eeeb630c20165b31016855e916fdd2b0cd30c61a7a12dfd52b8decef2cdb09 0x4992321b735a92f1de5b818f0595596930d4597d899c75ac048a332a2166986fb0a620db87a9d235e1baaa44abf29ad356f1e058e61bab4bb938d98128ef942875 0xac639e0cc82459587de0213bd6056e0e9a4f7ef42b5885d56a19589da7e30ebce1d26e4e7d98fc57b3c0a2098851bc8954f8ac75cee3402fd53a6afe7e7df3b7a8;
Dbl 0x14b98f121b101f7af0084df636b7535be86a9bd79e1228b91a28816d07191a619cdbff4409f602a557371f671d7eea77aab25ca843aeac94f9dd48ad715bbd23d3d 0x14de8718a6b28db1c123843d0fd4b91c3dae8c20d83d469aab3721c2e874d938e819ccf2eb7d78e4496f7e311a7ba1913a9274589fd95c0b70fb9a4e5f13356a38c 0x1379ed1004a9a61daf78b1ccdb35e17ececa42bb574805d9e366abd22dc92d6184e977868a64450a7a3f444a61197f2e825fba043de6e19d307685cf8621006b21f 0x173acbcab3d389cafaba6b44b062970ebaf65a044398cef9a66f820d15be21f119d5efe5c8331885b4088e6139c487d1b752bf59bc4000c9ec34761dcd038ec6515 0x1 0x476e52a2dde139b8dd9e61995aed2d4c2cff88954c848041c9b44ec582ebdea32a4e178dcd58d6e36438e575dd105ce6ec3019f7d80e97b9a1621074909acace1f 0xd6c26d762d6ede44be32a508454232591dfef0d84b458acf8162380df262d0503e53d0ff2ebc692e25f1c999ad45fc13ac0e0e6ba85aae687930c7175267229447 0xf0b7324bfad9ae511d7542b460b75ad52735b17a54793e1184cc0c2a40da96001204998f3504c3f155923a40dcf7ff876358492e77b8bddab695d339cb54de9df7;
Dbl 0xce6ea5877a8cca80e6728deae520c00021cec28b748cab027e3a207ddd3ff15fe1915852a68187db775df6995b4798278b9f2f81b2a09b2580ffdeb40da5941ac4 0x1ca5750212aa7778258202eb9d3de5bc9b17409486be791b47f488f83a074b574e9bc8f75e6f2f9a05b8c0d5e65108bcd13e4b5f6fc6f46f1988fb1a0775941b21d 0x1a59bb03a024ab19cb37138b7cb9d5c3dfaa737e246706ccd83308b2bff48a1ff157ae6054f1383404a96f36482f4eb895f95ca4eea1dd9dfe3d603dab8d28a81f5 0x18391216940816399ba181517296d35fa2974b8c517ecd7f634298caae6d8de1997e03fb8d0e494a43b6bd5b342a98d4695428f93012679c57729f34579da14f16e 0x1 (-0x1920153bdd33e4103289b1b5d139e9f87d7e0c24d273e578ff55ac529990458deb9f7f13f0d919f150b002163ca9b6bd9d1a025b92cacb74f803f9d01ad98a44dcb) 0x533b211c5a57e948b8ec5125d7987fb11dea7a09c2fca14a0266145b5bb82dfa09179667baeffb2d2daf96aec6119d7e5d0c5d3ba7d76d87f49d44d44222829325 0x9c4325ec595dcd5880abbaca36b1fbdf3619d392ebbbf6c57777a6e1709c9239d7c3f7c49abfe3294fd43551dde62149d397c6e21af4aa90d3fada135c506b2fdc;
Sub 0x16737a7a127a8747e883baac54991819ac276b89343659a0c38abc0337efd0d870f6bf5ffbd8bb7b98a68eaf70f8994c32a97318839fa0f28caa0856fd68dece4fb 0x13909089de33b197d0a526a5a94f994ee953845f840a84307b3bdeb0d6bfb3b9f6e7d93fec1c99b4141d52c9c2ba871570a105c38ae7e5938675ae193afb4bea9ed 0x80bb1843988f9901347e0e9ab3be4d05cf60bf5f348dcc7e03971bd927e2dd79a8bdc13811df2a596b29b4f5f49f06c554da36ecd05b063d1e61462a3ab0c2178c 0x914e4783476c5e054dcdc45f3ee4c6db1c3bc3502b3f4eaccb8aa476347979d57b3efb7725295e5f19b6e0c239681a7609d459be4df0edb93134d00cc7a4830830 0x0 0x103d1c21a73a372988a81efee6dbac6156ed7a4c732e251ff5d5066d4400968372f1b44176f031247328def9d3d6d8c2435b16d433ae9dcaefc96332245965bf4b7 0x0 0xb649d1b29851a72c617eed4b4136863f4241ba2a774f0f87d9511b1702fdc4693d5ff07c76a5b07eccc021d850519ee3158d5432cc633f60379115ae82bc8bfcd9 0xfc06921fb91e9426d03d20eac8c6e74069af59e093434a03d60cb634c798563ae7b39256f73d65c445176f6854bfa058dbecf64e5dc905473b31f46541574e0b57 0x65f22e9fffe0bbd63c0330876f909a372b1c94b951637e3faf4a56e0b7308be685d3b9d7da552b82dbf7dce6e3d66d55247c275fe049ecdd9acf3e32428748d271;
Dbl 0xd675d9ea1dcfd8a516a1c6c42af855df1709eba3c8790598e9afef2377c67d2a94676eea3fe85113f441e460385cb14d28b65c890109003dccd041f1017dfea65d 0xb6bb939395d7dfc18e11fa1f476188b61944d2790675659f130f9379d45e614ab4191ec117c578ab2161a42aad4dd53f8caf19a05876e483863396d31598901db9 0x8ea05c637817ffcec33a00a8cc6edbe94d271118937d0c1c6592e94ffcf8556e21f099ce7cf925a7200f4d19a43111df6f1683326246bb2e10b65650be0a666fb9 0x824d750a4d6339bb7c40703b4d980c387bf3737f3a32dd68a0ae5793979cda54ba64753daa042296207388717e5a9c177d614298560774b4e1274ac09a1c2e8c34 0x0 (-0x1d252f9b69f90297b5cf2d33b5aef6a5d49221f8dacea7049a6a1d5e64e3bdf34f072f913d63ffaec9ce38ce11e53640f3754a59e648b9f376051a95829b79a5b80) 0x59d49f4a29aabd6a74baeb1861a853ab0c780661acfcb986af65550647144c8abe2bed12390e731fc3522739712835fe115cb34a3e0e11e5399ee4e7f5a364b3ca 0x36945e13f64acc6492bda54eea95bc9e255808e54b0adf47531e1a4320504ebe0a0a1ba375aaa9606e848f8ff9df0914f998930500d25a4d65388663ddcfbde061;
Dbl 0x1329c851de753cbeaaf292b965220ea6f509281caf1703066a775e6432d183061c3b5290e048f6c49b30ca57eb96ac5652e0ebcbc9bd0c3575709ca020687ac2d90 0x10293c4627ad676b28d70992171715b4474d030598ddc85704ef270de1f51e59f98d6b7a451985ed15ab8ffff3d8d9d99e08a51009136516346c693b7717541d52b 0x14ef6a931c3797d6dfacbaa9a61b8337717524929da10ddae4d50fdc301c9d8353adb1c155a6391cac61f60320074d38153e18547398639c23865979b7bb7d02f50 0x1b427cf311b01690f00a160fdd5f02d71a474a21f7898e02ec41d229bb50c7bab1b42671cc62d19d9c6a8a42b6fc037a5ac24c89fc74093203f6d031ba4234e488d 0x1 (-0x18d3fc990068a007740ae3eab358419bb52c54171495b8f6ace0b0a04ad3a86e89b8adf58e5f5677f021c3aaf50c23bbfc7b12d7e90ffc013c5541e9458a626b10) 0xb79d46f6ff572bbc6e55247e2b70622014a1a2bccaffd25c34d188de86660a7db78a2023d368204b8710615eaa518080e568217657d4df413dd1d1ef0184c61f9d 0x10531205b4abce8285184d810b03deb5f323678135bd466168cbf5ee39cc35d60eb6cf3e558df29254097f337371948c37bdf3413d4e9b8a76b78c3b78809b106b9;
Dbl 0x8f205525e35f5a8a3684656ac7348ee98a0566ec9934e3b8ba0d52e24205969b3aa63f85266878891bb9de44518f6c48bb560cbbd2a0d377f665b2f381e3feec89 0x87414dc0238d10363e10bd62bf5dc61c6787c2aa902ff2c40732a32eb3e1e1860846749af475f4b7e53b3b9571ffa05a2c82a925a08d9c046e3fe875532f6b31af 0x3049d07d4d0aaffb36aeb67acbc934625d0443149c0636369d6fa98c30d7ac06d203081bcacd6107cda7997d34a94c541e3a89a4973266557f6b8f8d78b1163611 0x7b5276a25749667c4f5fdbbeb21395280d486daefdac92ac47bfcdaf6b700419909043095d226a19757dc469cb8dfd3fb407a7daf0a8b55ed886ab421e45d6a37c 0x0 (-0xcc7f2cf10345aeea26f030b9e0ff8e967214b6aff8015174fbf6e1f9b19b9c602875b1a89335346ab3789a938885563db29239476f1d5bde1f156351c098ca63f8) 0x2802919adce7c6caf08bde51e112bc82d56e4432a4e6cbac1f345b87887a57c8126928d69a185eb77eed439008a392adb122d501449c6ac7cd3d8756cee985fab4 0x227951cc12720223e44a1d61e5a2615d8b1c34f45425ea0f8b3247f086ada3c1d2d619bbade27b8608888420011268ddde44b425faa9c437b3e6072af6014a9805;
Sub 0x1b2599bbfb77d5fb5ab5fb57803de1e20b9ded5cb9964617267690e9a487c9432d19857fae071bf2972269afffbd0b7e656444778dd1346c540da42ba1e69d4849c 0x1861e494cd7c4a89ce326957f803638500e896beb4d2b935d7d9f0599478ce710df9cb88be7513a0ad6085094dbd5e2a370cee2e98b0509d05a994528d39d6e247d 0x1c615983309e8aa30396cb2ca12bdce97c0a1652376afba83c98d43a613efc8f9f54ecab5e423848a8265328ee31c0e96715a3ec9043d0524a729f9496bd6b4a572 0x1012304734bc867995aea27e33f278dcc58fe56bf43045f6689939d956c54fa7528a9bc0f0d24baad0f32eb009629bdb6bbb3c63c1588923413a6a34c7f91fd0d31 0x1 0x1c0bbbfb96c890b4c70727e97593a306824eb5e29572ab30ee53a7a7f537694484da5293c7c860d5ebc3d1dd44a5ca0b14e4f6071df0831c1d24669f7216c857448 0x1 0x17cadaea7de212d2cdfdab45d57b318ab80d30e0305cf2792334cdfc7e17605bc14f9e82d851095a991166b3cd63334126c98db66910b097100126dc1f68bffa082 0x17079f9b9da1a32bad3f07b5787aa39b1222fb2439d0b0d0bfdaef5c3fea06f668ebe4f4494af9a3acaefd94a4e85c5a32646d08d372128f890f7fa5294b0add482 0xda23af9463d797cff8da38246de43368968457f84fb189c08d2955dc02af74b93649c34ba9c2876ee00a0e5e71c95e5fb3ce93e54da31dd9e7122f9c2b11358da7;
Dbl 0x1d7353bf1155c53f4a18672fdb53b72105372b668d59696afed03acca089ee8ef8de04368b8691a88e63e0ab5f9c0ccd2b412615a3cb565d34de28942eec4674bad 0xdac802b9683fcecf2bbc06b3c0e21da4b95bb6fc214510f9cafa0792d64a8548724a4861eb68346288c64341eeed4e680d3697c72d907080c67c2445507a1e3f9e 0x9e96ce9bb084fa70cef6f4fd0529a0d41852cc60ecfda6728a9ee53523d772c1dba0bfc17a7f2573a0b6b8b1d09a78b5ae4186ae997fdb541d37d63976f0db3122 0xab5646936f84d9cdb76a8ecbbf541aab552db4ef2be68263b2a4fe06714261c86d527029fbe905a84d420d52ece8943b63984b225d74994f941d20e383234fe4df 0x0 (-0x37f04890128851260f00eccb7fefbc8990464b6276d0c2cef3fc608c38a532f49caa1af43019e42584af46578d4a9208a914948059e794f7ce8b37bba1a2f638fc) 0x1b1aa76d17e3acc055afc5c75edf7f6c7d89787dfd4a94a69d6609229d5fe9810a4fe03ff58a4ef134033bad47547c67ca1b022f37c8d4ad94631c057bcd165b5af 0x9dafae6a0dbde6db2b54e1c206f765f8a08cbbadcbd0bf493573faaa7268da4f6ea9e58b3e3cb627749e134d2ec0675cb6eb3acde016d401d15882b239b0cbd6e1;
Dbl 0xcc817fa222142cb0a0efa6fa326ca0524c899382395bd79f18e5b463236f31533f0115ee1521f46fe2ae8b1342b6ab8069a0f9ff52787e295b25accf3c1ed7770d 0x1091d5da177c2c0bdc51eee83900d77dfba53b6c98ea484fdda65d3fd985e8afacdf1310ba0ca3ce5aa4ef4375e2c6f93adba25bb0104c6ba62ba5483d240edc2a6 0x45a5403bc46b0518d547d626e057aff94634607701703054ed2dae14b5ac664f37d5bbc7e6225a43d8a71068b4b70985efff7153f700acd78a6174167cb4031003 0x1d1aaa517f07d0e11669d183030d4a5c4ff08003292a08bfbf09433953debfa4da45917564a9df77cde774f0a90c0ded45f7c720c2c8ba9c663c1cfc17e39307cf7 0x1 (-0x99c57ba89cc20d2b4b7c6bc27f59c7b72320cd29167c70f686d6d2ea6f97742cae558b6acb477d8d3458c5a7a9b611f5427e05c0eea364355705a308c00a8728eb) 0x51af527623ac6206da74a82a36d2c1547906dde98df3569d30801db7c446ed0026cf0554468b3d68afd519d5a4db187449c9f6c4255214ecc10be7051af9f72b39 0xb9ffc55b6c4a461d6ff38301c70814e4303c107bcea303d4d4e35bdf463156ea20b899d7fdbe0c6051e3bd5a0b41c7442ca47827502427c8129db916b34de0179a;
Dbl 0x7ef30ada5867b0633e2ebc5f6aedbdc8145c8b38ac1ee99d8d16d90ec3caab08f57c6edfa2f6515c4eaac958df946b9d168c98c9e8b55f974dd0bb9ecbb85084a3 0xf78539c81768c55317379d868cf91c56303f7bfe736302e11d09112e80404318b08c3bdc16c3bdeec7d5cc593a3ae705ded114786e3e049371992131b8e1acd72 0x614d44fe1adb7a70af2c6d6ade2ac4d9d8e3a08499bbd1f17deebb28d45bc0344c872d9c6eda3ece992aed7bffe3a114cb398e5dde9374fa4df683e2dbc447c1b5 0xf9a50a04f64c346893ab74ab273de61a574fbf09a76e54cfc89542eab05a86c942e86d4ddf5e0106bdd19771ca88c1234fcd14737a20e6712ba0c270b6b2d2f534 0x0 (-0x1794b4264b57767ce5bc1df93a067abf5a0c36dc2edd5327856c0c594229a2eae18c79e90cdfec1a8e3bdaaba30bc880e10629aace4bede128e08a84ea9c43570e9) 0x1f7a12b644ffd7ceab42d5a65e6e0a0d4315d4bc29043fc37cb93eb5e23aae9e610b1f9c4b420c8b7f7159e5a22e7f16a8975c733fb5e97322aff9b440955dd2f5 0x3de61e962989ef6a74f332d92d8c423a2f50bb6fb4ed18aa4fd7698691508a251b86efca40a5562f7dfb9e5dc39392f7c409c6fb1ed8fdaf30d2d1f669d549e19c;
Dbl 0xcd0299a214d8b31cf4f5b6fb36ba9f3370a3271c92289df85276ed961c397e9e962e25015fca7c5ceaf31562c7e0fb73c4987dc2930e262ae0b016acbb5dc2b77b 0xbb1c2e89f5cc7963a6f2c29a7061ee86fd73811abd482a43c55a462963cf2c5a982896750e9dd97387c72f72518baf0f40b728130b41fb2acca6b0bc55dcc91b67 0x1b8b59c152342eb7eeda40b630af9cb953e9e067c6b36a730d917ef4a7e1dfc30072f1b6b8c18dafecb4f03ba0b0b24436efabc658fdf8014350db7a2e8388cc21f 0x1545c25128baa12f18a80b73df86da33e659076a529ee05ea4c764ae98434d7d6f2e02d48b2ce626b64b62d534217ff611d35e9347ba1e51e6a72e156c5b151b20a 0x1 0x4c84e1b68ebdb575c6998f6896b4f8c92831e8abdc1f8d14639421c96039456422326c031b40635caa58bfdb531b60a9acd109d8b7dcce32e74c2ffa943bde6a5b 0x5216950a2c0f42e44b699de218de7028ae19196f1acafcdbbb679a1533f313b56e18dd6ec99f0f780de4ff3f9e298c15b6b01b6acb5e96211a6d547f710111a132 0x88489f555a15913e207e14eaab983b971f10510b7265c06ac150c8f0adc4a0b57aea5dd1c7f913eb32d1d4e0d33b8a68d82221c1faf0c0643d928cb021d6bad306;
Add 0x16f0f2a13310114a7e97c2ec3252bec8bdfe4c6d6e525782cb0b3dffe554f851feb0723ac50bba3f24f1291727883e0f268364c518ee544327e0a8d7260e85c13d8 0x18d3208c6b77f0dbec8363d7f84b9686ec489a3db91f5d17f2445ea56e2bfab68ac8e1be0c65213c9b44bcf5e800f9944f4c321f541a9f5bc687603e441d0cdc16c 0x15238b32c4b07d7ded32fb700e9c44109b3d6bdab1a8eb84312a3d1891194f37115f6f11501c943528519bd23b519d181501496421284fff98f54520565d5ffdb1c 0x12dea25c33e4d6ba4debc851aeba8861838e9dd3f2b5258c4a1145bd2810f80f1eb9a7a94484bc5a9d37b6013d17c15ca4bf4061dc998056e6430acd8140bfb59fa 0x1 0x1f496a0833ec87479d95483cf0a3e58d2bad71c998442ea8ea3621d7a0363df1cdd874b1696adf21a5ec911b129e8af666283df5f49bc90e830ad323e2419e35e00 0x1 0x166e0cb9ae604383bf44a83d9e450cfbc23dd551a9bf890ce0182c830f76794e12bf02b00949e6a7d4f8ad68dd8075129bfc3c8da8abf6d3cb0e069572a18ea0bcf 0x107263dc47dd5926f42b87f09eccaa602d0408ae887db6556b419e3b838e94b15c9f6b3aa5219b3129993a3c8be354a5408f3140ec40035a69540a0d7b3abb2d3f9 0xd872473d148fc888ea0feedbddd8718b2ee6d32984b3dd11f9a30b550b2a3e976aefff7d8a3b095e4783e67856c18f37aa8107213eb65ddad3eb14b0e164f3244b;
Dbl 0x13e37ac0dbd3130b8da40bbb0bf0802232b6de269f8e0ec848ba9d01f9fc07f71b85cb5c48b99ec081a04210235805ad1354e52fa3211e6d001fad56bf01062ef4e 0xda6c9cadc6a63f8bc6dc2fc323f90ad462d1d53302aab91168c3de3f7712580df4749c34726e1d15281a1f51e28ae9096ee55f579543a5b0bfca9308245c5aca25 0x13786b5d08a7bfb9b8e629a09c2c7cffc0319eded4492df3ee3f51a9b95dfcf8a2446b70ff20b957bfc89dadc16746a5a58ef6c05a3b8a348ad0b0239f6e5a8495c 0xb2c56c18f0d8ce33015a0dbc60c05d9a61b7cea88f4b186dbb820c176bad535ab8197fac53e3f6b48c31b00c9d84b03b85ddc29dac66500ba8ab70dc1d7472f747 0x0 (-0x1f7fa596fe1a393f8fd696a1d215f54d20ba8022941b20759513f6f2adbf9458e20a74ed82cda13462cdd8571b67b239678e10f4b4fedb7d4ceeeb0b5d4d923bc63) 0xc5c72dc6c1c7fb9284f7cec6c4cfc25202f73dcd323d8eb58edf5ffaa40ea8a059dd3c564c50005051ab564aa721b7069d63405ed3aac57c1cb8366642268b9139 0x6f1c0e6bb8a73435e1ace019a790e352d01b5cd3f6baf9e7cd4b2e1d5550a805e4c56cefa7394a7c010b2bf4a5f5e2a8cce4482657c8e512205dae6ba4d29783d6;
Dbl 0x15900d87aca110c1fcfcae66a6cbde68d43c9f7c03830df979d34688c62881d6da2c71eb27d01daad9af76c5e164be482f760acbf8240ad65d47e1fbe23eaf6cab6 0x12d2876abe5d906a883e8685bfdd5432e4b5b260f223b27a540bd370a183f450ca440f5e8a9f1a6a6a8f9cfc2ebc58d30f125efc6c440f3662fd9e0a71e28dcc2 0xe7ca0791bd0e0e11213fb60d572f8f2492c8c42bf02348a78a512c3def81079658fbbe51f358ba713a01fc989f13d362de8f92d61b38d488f4efc38ca0033d70d2 0xd93f74371ac066851e58475ac7fb359134867a0cf3887de9c38321086cfa18c8e7d05b3e89c42b6e817125821f9f237c3df43967ce7f64bd599ab9277d3e31ed63 0x0 0x8c49d51252de39a053b8c3132b5bd0f7f16b702b9590bc705d35e214ff60596904bd8054210e9ef27831ac569aea951a4d9006238f09a114da1bc1f182c109bd38 0xe879a3bdd5d8b147dd2283240e03ec2d34f514a2e149959d041efc2a0f8525584aac3505c77d46419ef3d47c4b4c14623bd16dad3177a5ce5518e242ace892b7a8 0x92639daa0069da1953a971b07cdfda7e44e23d9c0f0e5b301f84e9b6cefb9961a77124b4f7d1a09b4812a74371926594e8390252faa79a79ac6cc78af9b0f4d7cc;
Dbl 0x7cba1ade42c3b8efe9bb0f0e21b6639fc413c526a3518af477886b99ce86551d840a3963f7385db15991bb08c99fd700fafd0ec8062d7783e67bebf5762bfbf763 0x7944b99268afc59a082073af40a84869907d714ed2d160572093cf6e93a36a922e26d321b596f618fb920c74e00aa6aa7897e34d048bb0e5a1668efae8290d3c9b 0xac9e10f76f05ecd5c03aabf27f7d0076dbad619f6ea3dfc91993d66500f45c8959c41cf6d9973dc0b5426eeaea69aa673fdd8dab8efc61420e7b048b6ac0980d80 0x187e86ee44336136ca06374b91b558cd99dcde9d73c50dad084acedc87674d4b2de7d6dd43312fb8dab16ed5ae2e11ee2b85942a2c238900dc4c94ae5bef51ba026 0x1 0x70ec495b95b08a0d0468b5249c11104ee3b2d6e4272ed2d4b905fdbe97b3fe7f997506885422691250242d7bc6890d24e53a2582e581a2b55242a4e020bff38a9d 0x1e6268a92f3c430c62bdeb7cf425783b36f3976700ed4ce3683cceb0b3cbb2da37be333cddaff63c667c55a407a185beb1d67cd1fe3fa4ad7b992691d8182cc5d6 0x5f78bedc7fb7f69d15191d548a8d22f04fcf61bb108c12207ed0b6526faf0b84767b4d82b708c936c802f00ba13af806a91be8b611349267a149dddb33eb5fe5a0;
Dbl 0xe373fbcccb192152e2747222bfff31f4bb9c57e23661f932335b15815250cf3d194c65c01ab1d62ef48c53e54b459587dc17d04d5214caf079ba0940ddf36ef69f 0x87b06ee7d1a4268305b5d2b46e70eace3d6a93fa467d75268322895c7c75d9a3bcff33545c5acf68fafc8675bec6bf58192829f2802238a3b10423a4f977f38be4 0x109bd08466667b66992bbaa71a185019f4936a6f2db658073fa45aade1d914bbf823668dd0a416f11a4e2d1a78378b15c9464339cd80268fc32497b91c85aaee0bf 0x1f1944aaa970b9f17026aa0fad2375d9b5312dd548c53eb309d714612172d90ee71279fcd593c26b0009585ff2143e7525f6fb95a84697841f0626b55eeb119b0b6 0x1 0x43334f06d33f793d07822c3b91f5b7dde55d50db27ce3417b184e9e1645389e24b43d62ca2345af4758ac73add3429841a35e42b2f1b6c15119575a50e83724c88 0x650b728cb0ec21e2434c3c4133643f5c4c72b9c9b121bfb02cc4fdedb0ebf75059de2f8eff3c380d9c6dc80cf531b7031086407a2edb971653bdb273f911d40e59 0xdd0bf69ea059ace434378b59ef0557608824010c07f410f280f5de103991d0a44836c1e6dc94a12f07eec5f4df233fb0a419a766fdba6539093ed5d6dfbc4f4935;
Add 0x14706a6a6a6e65fb2aff7f364a66b5003d8fcac3db89288b471877c85e82ee76389b59993bd5dc104b1ea560a83d02015fe909c1115305ce6448b71ae0937eb1299 0x8732e4672434177b48c2f239a6bf41dedf599e685c93fb0ddbb2ce42209bfaf3283e2d901ba10d77d8b61ef86ac513ca788f42ac06198bf7eb1fcdccab2019cd42 0x17a98f2a8a08e89dbb459d0c73c4137258b1ecfe79aa84339ed4d12c1907ac623ba7ddc015510ee9fd60e2efd6d49ac97fea4c4fd8153835cd54a3287e0995e3f01 0x7d8a80ad700f07bcf2e07ac7b1a8ef5e10f591e9e97a18a76fbb1a5bd9deb094c105c440b9c1f12246677d5401ab8da098e7467a08acabc5e455d84e57d9bea2 0x0 0x1c12ae0e11aa02199381793e9084d5519face2f790d783571612a60ad1c0a8c66025de7f5e46ae80fd1fe68b49723bfaf3af4e13ebe9cce61150aa526c7b50dce7d 0x1 0x11ee4b853815f7b1384b0ca34355954210f663a41257b74dafe6ba15cbcc023ea8afc65535d369d27f04173c7d21a0916a3e184487d3075cd30821361cd255947ba 0xd0e0fef4fd56741b4ecd8d641211ff27d4455ea0eec91ba5b7a78cf17166a86446e80e213bd7d68819fd3fac1be8764f958a89f065cbbce4df0457cb3b76b3371b 0x502f96ab0ba641958521bfe142148657c96b133fde0360533d861c4550920f874f1eb7d6e8add0217971e7fd2e60feb160bf42e09248ae4f7ca4142056ccccee;
Dbl 0x1e98ece9ae140a93701f149e5f066d57d8d8eb08137d23a401c6e156e4937a0b88525f6729e97d3727752a2270bab9982b66edc1466d33a588f6918e2293e5d6d82 0x18925fd9c3a91879bca762577b7132356dc4e1702c45ca248136a70b02fd308da49df090ee6b4a5bc76101a96a3e68fe90576014f75f445dc6e4c264160f8f5bc6d 0x105371474f39f7d64f6285cb94adf4847f12a53e175cb49f4509b2f16b0c88bec693489bfaa3fbab5ffe2cd0aed75b6ee86a3eea5ee26de75cc14255db9f8d0fc21 0xfe0ce6cae9a28fdf7e4cccc1efac1e88030b8765983758c5c8485d91f0c8f218de5f248134ec67bb62a60461c6de83e17319415c9025461b7cd3a78b4a272410d4 0x1 0x268e74762a23d9a0f6798ceb1e77d92898b7bf2972dc306f9107874ad38a791ca3be1f80bfce42802a7c1b6f914ffe2421b5f580025ad5797bb27dd4a3c6a4b7805 0x1d419707ac58c4533db62658a68bfa7136319942ff9136e379c3db64e05b9928e6bd0ff375326427120114e753cdcc00f24319a5e2b501ae6ed60e9dbef81dd60ed 0xf2ea2e84d8ec5e871b753c8cd1ff41fd8a190b5183df9c000f2bad1cb4fc7aff442a736f291e580fdeac1ac7d073195885fd4b6b2c64b3bd635a07c926e1b06b7a;
Dbl 0x8b63e59eeba9cdb8a5bdc5cde0615fd2e6beb147e97949d037c57ad98e41794e5f4cc5c1b0f5271f1ccb4f24b2c84735c3efee451e37a6829923d1a96f093b8f2b 0xc96a8512049d2cefad82e481c38d15d6245b461e18b558317e94bded25f61c26698a37e7fea1c66a0da70054771ae7b8279da8196b554db5adc97884fc9f400f54 0x18a443c70460c180829a5385110da4f8380a8e086ae12e652921fd6577bb81b9dc85eadd7649167a1dc4bebda817b84ef4ba7880c277ba9c1b718273ee52ccdba8 0xbfbb788a35f45aac1cf340f5f3860d80b7f2d0e4aba74a1694d5b2c309dcecb3e054d126e812df5268691a422ccba830ddd859360a9ef826c082adbc6459b5ad19 0x0 (-0x2fb6da8be9a13006030f2906e863783cf374a3d7b860cc6ef0367a6351725fee4b377eebc3f9776e7f1c44d8f8acf85ce4fabe321639b082d4ddb19baff6f20bdde) 0x25f2d12afd652f8094b1df2c763721a307ff354e3ba7b14df6fba5cfad881e6a68d624a67fc477a28f26d9d4685d5f40ed8ee81f5d1d857a65368cdc883d4876f5 0x3432cdf630e36b6421afb3667be1d31d6b2a670b7fc8b1bff5e1c96b1a58257a4d007c2cf2247c373c6cde29131727cf6edef2abc33cb9a43f02807fe4f8a5cd96;
Add 0x15b09a855a105ccda17b1c4e8e9d95d3ef3de19650f6b36757823925df9c8fa27264735b007d35705caad1feb91161fc34001a90794432c7b96153bb4b5316eb530 0x11d3e9dd8c7a113bb4b601c176ff4ae638b067051bbfe8f281f942bd70c8389c69bb283909287b3b9cf4a55c3379a389b7b6f84b6c825c9c4fa6a9f4321e567a16f 0x1f7f20945a3aae701c88135ae2c10898b815a65176ab0c578f80c9dfb8044e93449586728abf6aad2a880ad8ea26479690686a5ddcb7e8defdccab0e055bc70f8ce 0x1ac2be7393cfc19346222c86a539867729954d5cc5cb6c9095f0092161972925fcdd7b4576c1a12b03e5caa913f80af1cac2e2362a32f83f0b35ed941dab9d86de4 0x1 0x2e4f70b4d992805dfe4a5b65d698021e1bee19cdfb0187c5c9c953dc58acee8aee8ec8986b1df10e4a8e2934f77e80f496a5f65a9cfe37311cffa06cadc5a51ee 0x0 0x1f63b681dc5eabbbff7de71e200dc3c6b9310c427643772efb9ad729ccd282396a45e160b989ebd32714f404de1537631ebf2eb59413d7861ae6beddec3dad2b8 0xeb39975ab39dc5ddc9c9150423887fec112429293aa4952b36f875eedb921ce645bf2edec4e9da636aee19293fbe372b3537a1b826c2f908802a92ff33b2108529 0x12237d4c0df27c079ec6ceea102cf440347d4e87e89ad226ad91768d8a44476bbf047bb494c66e144d33822581dc6d6a4f71810d063a0c4618313830b9f54ff05b6;
Dbl 0xf61645d09e2d8450df7b66b4e2664cf03d48ed6dd25a32903445d15db408c78f7fb84bb6c54bf7084581e1a5936f104aba6d009434a17b2f570af729b2bd548fe5 0x11cf04c92fd5c917027a6382024f25ccf42bc1ed1714d7a8fef78f35d730728f9fcece13dacfa5186e1efd56d66c2639c6a2ebe37c585744102f2f840bc32023e72 0x1f28d63960a5a8a6f743fb0b941fd3ee2cd96e61d2fb8b05a0362847fff208ad5c35d7621995931d0e3fce264704dc9888076e4cbb2fd04c57bf7cd9e703db51f4c 0x4e5145ca44824b23b9e3f74b025194484a51804ab11498301b3879997c60cc9ec5a252e58d6232ed5a8055d0d7d4ff1140c67f02a05583f777a70265b36562fd 0x0 0x7afb4fc5b912587c5315a0980970daf6c9eb5a4ea2c2b2986123071097ab8c23c638d81c8d269a6da1496afafeb4900019a9244ba4a97d18670214640de1925d4 0x7647680e817264b2103732f44a6328cd87fd05132d3e2c94fc642ed922589bae186131859dc8922856c1970deeee1938f9415fe528502b35754c9b5a251ba7de77 0x25a474b40bb9b3062933e9b70d8c10f1644f6881ae2e9b0ac90be016525849c5f90e677b1a544177bbc96c7cd16342af2b0ea8c6cdfec575337d7a539a2538c9;
Dbl 0x19db6621d30bfd380938a6bc8b835b8c78321766ad4b9b52bb8e169b6725a0659d992e282af7bb3a8511d5a1d4b6c27a369bc1a9fde424f7c8b7480917da0580c6d 0x4cc414ec2400724b10bb59aae5d0b4197eb9fc7398b6d77e40c12d6d0a6a96ff12e7685d39265e274e6b003249d9c93659f029bd3539a69fa47cdec9367dc3befa 0x98d56521d70f980f13621b23a4a1da548e4de720522979943b5d1ab0ce4f7e36b44d4c465f50bba616b02b6fa92e3aaf1b9899c96156cc0e74606bddf5a7d3cba1 0xd02c37a6d95c1f2516eade753f21a8b5c402225dd896a311aeb7c5f0689c91faea0578e073d3f35f9384d53b1ce89a66103e947a904bcda15e76197785b43e7f78 0x0 0x149f8381021772b16b79814fc5cda635f3347579672f3cf506fd5888cd9d822f5ccf1cf9a57b35df445eec29b3bb9eeaf96f5a24eda15e566e440e7da52a79e7991 0x14e4afd40eb334eea44c5a1dde5c94fedbf127cdc4d86ef97d9fd6ef58c468d7bb12d172f6b44a018576821c9621dd5915f5f9266c750025ab37551806c163dd575 0xa835d280339e4d2155f255b68f83260b8aed86dfc2c47a3b7e0e2961853de03f11a563fc530ff62c059eae2c0f69a0118d28feb4860e0c4f2fb273194667b304d5;
Sub 0x3098eba85d01945b151cd540b6128c08cb289109bc5043d1c856eabf69540b35082d39b77f9fae3d3f32c698b7d68cd70b12409961a2b8f1e720bd35d7f8ba3f95 0x1b9a371f4c969fbd5a2e1ad02fcb17cbda267b466f2bb5ae77bac6762ffb8035b0283cd3a619398ca3a9ba88f388a16d52f4f02bfcf409a58d3ba9d29b74b280896 0x589490e6168ad8ece9241d2205a39d463e0864606222078071ec0496e94ce92ef32c1c4a62f5c1f5ca7e4027ed9a6ddb2e75197c364b988a18c13da096eb830a95 0x9320a2f75a9676756dd9aca7e91f375bdc52480ca5fb7c96c514c60a0ab293a410639b22d792c55d13cf57a3114fb2612aa126fd65f90c46d0c2419f7f329bb663 0x1 0x1863e86e56cfc6d61431d1adf7fad1e653c1d97f25fb197c91ec904bda9ff49c158461cfec13676ce256ce2712236c98d7bbce10973b43c5d0883604b04bade0193 0x1 0x250a6ad394a625b2a524158326cb7d7f8fa8bfa8bb6cd49ffdc3d0fe659b3a8786b18ee86c20b9ce18021a490a41cabf3297397ff55b0b556138e40666553d1a63 0x49cd9dbe9dec97eb727fc28694135dd52d5bcdeab132e3ce04b7845ccf347fe3db7cd95e86850aa3adad8b10dbe20f01c8087fc47ef3efc16362490286782d83d 0xdf700af6e28e2cfd0d061f7d67aeff8f835d7884f69edef2b7d35d01ea9b250a45da9a00ecc94ebfcd8b18d41fbf0b219b258af3c983a67a80b26121860e55197;
Dbl 0xdfedb719c58d7f69eb8a1f7f5fc941184116a6575b71c747b6bf40ad3513c068499926c7d4328a3e1ff44b7cf1fd1cc4600085dc53a489982fd4f0b222c082a382 0x41c166409c9d6e500708f50f034649571c626b02ca24193a7a634d67862b935b8402fad3cd3ec3cfe54ae51c966bf068a568089da08c121d39be833aab008c0b03 0xea22fe8cf48db2ae2f1e17937eb293e838d5cfcb9cb4fdea34b689c13319a87ca8626eb612f733c449abaea907ba0d43f858cea69d07d7adc65cc76cb621b500a3 0x177e20bb42ccc8d859bd8b7f3f96b336686054964289741ad014919fb798c6fff7e80d2669454d4fa5550c372a21e266c89e6fa222eb4883b99fc19ef0c4a9bfd93 0x0 (-0x4295b1f55d47abe396da3f5310bd0c8d288d11f4f3d4b61935f81649c874f3fc7c089c5b0a47069f8f690fea70dfa1b22d858da6df2f916dfc40c6ea47e966755ab) 0x61f000ddb76d1380765c132e29aa450207d6dba43276e612cfe89855c00aa0cb530c71c8581bc162ed38068f9bf679f8b3de5902eb9e0ab8f5f1251fa41e654e2b 0xa46578a79b2aa76de154fbeed6ef4348af6d20f46de3ca03005d6388b5d10db1d31377a8b0d7b9b1ada3cc731c7a11dc594b67cc1f29342df9249a10a2d2e6ad92;
Dbl 0x64eebcf28b9b201a34e40f05186a9dc712922036f743a0db1a853e63ebc526461b5d21eb29fb39192ac50d33879f6ae4b8a908d64dbadd5eb91bc2deb85e00229 0x191414f6c9c8db115b208c7171f0af152775cb4f34daf2aba549c9c153ea3b156b6f139cdefc3dc067f3ecc3f45b07e5de17f47951e4eaaffdaeda7b6275dc59a02 0x62dab7a909acefbcca65c30fded46f4d4b685f1de86f184e31e1fe55302786c7ca6b837f40bdd9d582edabe2297ec83b597e11bc8b8bc28bfefdae05abf2024c82 0xb08016d4000fbd3a55002df7e43b5804a505b60f7c74ee8025c6b1524787e204cd11c105dd7ae7c9660c18dd50bb720ac3e8c108823d671d5ed0db8483a2c67100 0x1 (-0x1390abbfc4cd1b0f81ac5661ace8a6527bb3a538755ecd4e521f666c78ab7fa67a96c62ce6849d5f214317186aae7d115484e8b6782d69108eb1d217aff7f8fa1e) 0x13e5b120adc0f42e1f4ec2ef9b7d6bb095d43eaf2095cf3e3a154a46d883c6bd9c6baf91bf6b5dc2f9697c2211fff7274598d05b80b7ffd2fc6d43f4fd190577 0x22cb5122a99bfc8aaaffbbc95761c955bf8899811d87724ae58d296cffcdf3a19728148355b1352c29cc801593cb767f5348f4b46e58888d88f7df0af950d3425;
Add 0xe882ed1dbea01a0c98cf393c2f36230a658355138f8f0a64526fb3fe30cdace430cb5e87105c4f8790316031595a16af93947c92fb2dace481423dec89c8d87381 0xc263e3936f702bfbaa439980de6690c9be3d65d77e44d07a120d424e7017c558a6481d694b73013e18623a2be20315526aac732c8905836237b426ad4993e3ff6a 0x1acccb4e787f063a6a6cebdfeaa5d390795709960ac95116f390ef707b9222820e95f38a5c92ade51d7947b7f232aaead1770390ada28a499147647fe327fec2315 0xcedd6bd92d1d851a07c52d9640a46088b91f4f1bcf6a5a40428f59c6ce8bebfe10a91c64a450dac866dc921363ad690b76d2d4689549279da3398108ddc9e19a98 0x0 0xcabbc165e589ac2be46a884bb8e75b9e34c0507214a9eb0532a47365de386418fc4fee6f77d3f4ad5640ae7e1e0d7eb5034bfee15cc940bd3ef42937f59adfdc9c 0x0 0x5c10eb31f704dac01ae42878ce2715558a0acd9cd78a458fc805e3dc68db125577dbebbb33eccee3a622de10fceaaa0f4110deef862d9cd8cdc5747927b3a8a796 0x6996c85dcbabf01d3c1b0764656bd29882a30342e1b4245d4f920f0a793fbf5fe557117c0adbb4392b34a235c1ea0736e02b36096cb296cd7f619e7e1406c22fd1 0x5df13ae44d9152bb706df9f4396816c8ac56ae5a4175beb11b7be52e6715e727d1810af7ecb9d584022533b2f46ec37d46e383fbfd415d4f2fb7a277f22e8d40ff;
Dbl 0x1a235d372bc440af72c2795a5af6c484f052f89d1264983e57ac584c48cf847650959ffcf6433d0296217e77db10f2252ae4846a94d333efaae8916afaf1402f15a 0x5c0d83881dd62d2314c973a2071d45a444aada1ebba69a4aba0e6d4a74ff0dfd8a1adf66c2ff33e22e8620c188f5c6f3255c42eb3043a29b9f33906259a72309f 0x19c7802794a7c14a9a5aa49495573b842f1de70c2aec7005f1a83fe64865eeeeaeb841c4f34f9854af67d95f228bd30383fd1fbb294531ac354662bacae94777e9f 0xbca30b5aed92c92978f70246bdf4bc6f79f2b835928a66d5666c5b79c8c7d478cda66f72df430dfff579d81fc973b8e33856aefdd60149387dc0eda723f971cecb 0x0 0x1df17161882a5d9482edc6897efd1de288b33e81bab06f7cac3c6443991e21d1ecbe136fff8a82e061f2a806030a849b57830416368a5589bc556025045b206d2e5 0x15599e8e9f57b3ee00bd563193c053e507353d0b131ce5733214145f2c6d892be8830f16af308036f0308bafcedefc318d756db96e94a31a3e5287ee5ee09479bcf 0x9a14f10d5fb6ddf0b796dce84fd4338acf0b84b700d82fa66d5ee585d8b62d7cebc1b3c3001f822604b96e4ade90566e8d99cfee69ab020e20772e1196c51dd356;
Dbl 0x1c424413b426be38754338ae62c3cccbd33f1c795c6017a9aac1b1970a5fe08d3cb4cd46ace49e34474530bfd8639f3aadd8ef3a7363044efd0e87bfdfeb768af10 0x11826df0c837aed23afe8f936a2ac919eb575a9b437b0690daab0e2db83701b5f16477a35b22a5e7c2c7487c209d087c6c49ef8a53ee0bbe012b7466fd1ff79e07 0x5a3a45c20c73006b1bcb643ffb9bed0b8a1b24627acde39e53110a2305a245fe0be1da837f4207fc13fd43b5f2577534c37ab39b654017558cae04d8e72f1080b6 0x1f43e6a47b9a5b3fff64e07a6b6470b4058f35306a83f6313d0f5d8a6ef18ef29e73d3653110d4d566021198ff7f253f2c60bd4a45f162e6bb8c7c49f287a7a9297 0x1 0x2d84ca7c593306ada372e96bb6c98266635588f2a71d32ebb227f4f2019e97070193184b64c82f38a179ef858a7ab4808bc1030f8eab952bff98bf7ffbdc74ad260 0x18f4805bdd5eb67a02bf38c744f01251b8b1eddc14f32826f90c5dfe999e7d29556e869886074584a852ed37a6352964dce538f2aebb9d0479a775e9a70c0251e45 0x1b9c285f29d8425f06726856c1859140b93d325e142129d57792f40bba62cd66bbdfe02b09491ba6ef5bc3a0df8dd56424fe9551f67ba686a7ca810d9ecd3519ce5;
Dbl 0x16e568aaf173d22d3691cba87d6591bdccae2b154d7acae63ec63bb99a7b7423544770f9558dd32bd625fa239c4897407afcb5d4ead46f962197bb7940bc14167d0 0x14952627b03007e77c7873d385c4f58171ff3d3001bebbc2729a6b2444a37b2826e5a05351f6f152d909770bc04f5b379f601c454a3d9c40a373e6c26a581c90aa 0x3c0729811626a68baf0fb3732d1c417c5864a64c70aeed2683848090ff2b2b658cca6ecc94916534df3fc063baf955e6a53eea036addf881b725131c22a1d15113 0x1fced47c91807a6eabe861bbfe465d39879581d6b41bc4ace6810a3097393868dca7ed750092bb494e9bdd170604dad44cce9d34509b06f7d5db78da492c7db0d5c 0x1 0x7f51f09b41172be9b76e5aabb386a8511f580b6c5c58d3253c8d40dba9fc9dc5ae48a870cc2b92737def1b048aa3d747d5d966148bc0a9eca5cfdcb936845c50d0 0x1061dc8e70f9bd4bb4beb2cf10276300845d37a44201f1e6b67e83e01f03e7a8ed4e4eb32fcd1d2397f3095c1e3d5a2e6f139a6bea64ab178c3b1e475471652c3b8 0x16c23a405cd812bed1a4d0d6fd4b612f94a653cc45adbb9c76f905cc08ad7037c3c0e3a0cab364d97ae0a02c80f97a59476427b55eef4b0516445f388b98c2af309;
Sub 0x1ee97141088ba0f43b8b545c0eaabc728a880ca01dee55d2eedb71ec2805a41f03e1db587e769d68a8c9d009a009348755f3ae0d06472427a555df45d7a15fad9fd 0x11181df47c6a19754614227529cebe4b73bba65c994bf1becb2348d2fd57961f6cfcf9d949a9eef58fc6e845533cd9a0c48330bd802c2d1d8a6e04aa43929fa8130 0x1cb868c3b91ed0f0e2536fc6ee936105d40a3f67451d951044d6d40242fbdc761f24d919b24b29ed779b64878209c8e5480a5154ee1264f44f00c0585646cb04937 0x1031346dfe98e70931b364c80e8d910ca3644d7666cff9fd5c065ddf46f2a1931571602beb75801f9dc9af2b68c81c12b572d106d477aca67fc939c1e312e220f79 0x1 0x14e0f9820f92c02fdaeda35081fa15fcd2f62d8aec8b97c0d50a24274e4382dea6c4454f4da0709f9b00b594a98ac5b8ec12cd39188b831fe077a6844389536d343 0x1 0x142b39e7893c68829d1b1115f6f6be8f347161c8a7041d92bee442794897276cd1eab0e82abd24b734e9fd329963ff5b372b682f78ea29280fa55b7126582f2232d 0x1ddc5b54c3e60fa6ae8b519e930325591e86f65a5a74f5d938a421e694d57fbc6175ef079f103b67d8e316a9a603ba2c4dd7b1abeb614365f21ba0b301f4739eb37 0xfa440bb88ff00acc8deed95c5b969f4b82ad38ae73fc6c2251314e75f9715c09f3857b60acfb2ab981524d08f677cd2f9d30759e5db3748d856538ed9f8e90beb5;
Dbl 0x17b79a2f1a286dcf060978fc72ec04ec00408af522b337a871700bd0d971eb96fc1e69485703a12a4efbcdb711382f3786c914aa3a1b8d00b24f2d40f95c3fc9563 0x843538effdddb2b4e909ae3b900c6d06e5876fe30b8598ae6dc58d2ff12c0d31317e0c65491eb4b179e74c8afe205adde76545a91e5e44a08904bc013827a6dbf5 0x1c73ac1f26dbd32b6d73ce13ede8904e0287bbea809f49c0dbc98ff73bd1cde34654a07ba64348ee53df6e1f8879183ff10adc1117cdbbb471f9c9f5e9a83bec3cf 0x8d4ca657c8c3e49f783879170cdf77b05632f5e68939833e446effffe44d54c59e51912f51803aa7828737ca35ad3f2e60cdc62ee4648d381ddb8ea3010253a53b 0x0 0xf2d9288a8d4170d5fc3c102a9541cb4ab9c155aae4a230d005f7a09ebd214f638acbe99be843aa41851764a0aacb75de1a8087d4a439bef3dc576764d4a4f99473 0x11940b12173aed5b958fba03fd14fafc261518d2aca55e1f5e794ea5fc9824d7dc32ea24f392c1a822118f014520dacb88715c6f155079ec2a2d9c705a137877a0c 0x68b9ceb73aec7f8a2448b4141ae4d796b0dd8b5705529708dc65a402d13591285f047694f19b278ad3075284da0f246f48b34f3c3d47bafdaba59ea2b6c3d6d035;
Dbl 0x14fb61a7ad6affabafe2aa38e16e0144d4b7316660d82de57bb8af82639b89c51a1f7df20ff9934fc7f4dc6078c6a4bb559dd9468ff2d6eb426906334542be9bf7b 0xb458167c4798eb4fc38e6ed7354e99cb47914607dedbdf0bf7908bda6b2e6758cc8d8da5d1c5a4cd7de631069f448c4e1bc9553d9f0c266a0ac21d533f1c6326a4 0x98b47034e221c6314486995a3f7d0ea34065870c6f57483f1d711e13294139e1c54b8abcf718efde54c7ebe26370b570efc812eb5e6cee8602054c4399d31b2e8a 0x1cfdd2273b644c765257b3f645abdd33b9df629db2ca9b9a27635015585fda5d864f07ebf77590fe3fc011b845edbce8fcb9bf06b7f521e367e429eadf90b43b550 0x1 0x1ee8f51fc5aab467ea3cf8100ca43bbf2f695a68e4ff188e01bf118295d40117f98c7873eb921c598f4ba39b5ed531bf79c2b09bf185d61183b797142f2b3de3e7e 0xdc1f0d6b93a3817d7ce451595cf622489fa9a22f12271f24d4124ee25945cfafb819a5757cbbc320694adead8571ecc3a628299692091e9ee083bb5935fc921975 0x130262ba379d5bd6182a70215f92749ac74d1bd48a37c901c76c853f49af25766b571e4c1108c2f6277f75041198ba8d3af27ee3409c66bda107e55ddcff33b24e9;
Dbl 0xee73c3d0c5e2f5fb87b8e53ed3c3e52fe4de29e6eb63cb7b612d74161dd3bd917f68fdee9e7c4482ccb7868f7018f9bbd49d28f25db5a37eef3adc588a2449f74f 0xc9bbd5cc29e2575f9e40d0b0ffcad10b550d483138f0467068a5609dfb52807d5ab77e68743f6df84eb7636fd8c3d4ee279df98a5b2af3dcfa26438834fc6c3e32 0x103289e296b99421f14c5008a32e5b9befd9681bcf03ed75ef9960a65e784a60b04071637e2232444e37e3f3bea5a3674b39718c91a65961d0adddd722593a11d0e 0x1ea9c40b01db693f0254d9e263583c8bff283fdd6a5eb989b8eeb2b3c6fdbe6db71d60f3d5d8636d52f2ecd96c680b75ff42b5bb343e1328d109bd9cb0a1ff6e871 0x1 (-0x30552eb7ce0c2000ba76b65998c066f9cf691c7525182706e5d32ccf4ae05a0328f35d78395a00504ab96794a90a9e52e784d289377f030b0346a00af5bf41b9ff) 0x6f0dba38d9a5c1814e6dddd5ae9f2c86261ce83c48484217efef28f02c6919f8b7fd78a618014b7f010f9e216d97740cccd94c48dd289a00decfcc5a9a033b0119 0xe47d8fccf51a7fb51312be2967c5e0076cd78dc2f29a599146b39cc9ec26fd2b961f8a7c7eefa8ed82d85985f57cd09da5512acf8212270c1adf8f4dc6230c89b9;
Dbl 0xf29b2875025f3b6a781a73d17eb95a0e977c7296cf67b0e6a126f2dd96ff2feb7fa385ece0bbae6c9811cecab6f0b4fcf10886f997c3f0e0e35c77f5bc6ea47fad 0x1080a3936c5d284fa93e2f0c54c0856b53c41565a990a398d95ff5e9f171954b1a9f2ed58d56623105fb546e13bd517779879362f46e13f234208a9e0528ddc3c53 0x824b27cae5a65a2cb42f55d95f26e8d15ebd47b1c64125bf2b0fca6ea66b31764624a8a56f29239bdba7a8ea40006e01cb345b8036c9b2413296c09791defaa70b 0x1c1b19c95640fd2650a5ddfebb3c27a5618cbf1d69fe60ce2d2a601fee4392bcbb0c4910f9ed94ae7ef021c8e9ceebd768f24c35b1449b4b9b81d99a7e26e9001de 0x1 0x724b8bcc09483e7dd206bb9d4304b5287608dac73119ab3f561a46618dc3f52445a89019497edbe0f87fa11d061ce99202c6034f4533cc9ef5e8a625c475f9c5d 0x72f4db439e48d8f015d1541a982a8271c05eeb1a6922120e8e2a8b9936c29b694def184a28ae93f861a8bec952fbeefb6dd7940e545d06613bbc8c8138055f9dce 0xd51539d028ec8f712b741a50ba962ee393c519903ceda753b9e594ec006223eef407e63eb80b175d97097ed43bfc6cd26d9f4bdb4487657dffb730b6c2b4255f13;
Add 0x1bd1443440be0560a949f13de3fa6c543902287945692b57a0d2c46913648b31b3d1c744e566966de76b26b5a8e9a44534c132bf624ddc1340e62a62257e733a425 0x182ed567668639201698eb938171af815bd37017b36f5b5c5b92eec05e824115dd5f2c0d71873a69c5cf75ca7b357270a08ebc89fea515d08cc43b09965a1363a96 0x1408cd7db151cd9db032adea7d85c15427f9f8bd0d9dc8fd35c5b41aed8ed00881fbac3c3f753a4ccf8075ab253f20a4da9ab5e80e65fbc3e23abcca3f3f81c8542 0x1851ce2c05d6ef2f92a54378d34ed5e9f7f0a54df621483c7dcd072992ef54353d4002c81bcf27c7402bdea39887df06d8f8d6d8f5c8fe21a75c4f946ececa601bc 0x1 0x4184ab300ece8010c644b1f9e5e4c100f9a4f1d96004f9d8740735efb6ae0773ef51a1fa5d763bb736b72920143217ceba45ed7b855bd4e0a60f2b6220caf67eed 0x0 0x38f466938649a36ca2deb0ca405aa3d1cf0b3b1356ae054b6d195c811eec753590a42db37cfe52a8cc9ee471625d1db1f5d6e31e905a1eb88d2fe45a29dc02147a 0x182e7b9ba92cc3b3dfb8e47a9ca90bed0c1fbd26b1e6ef1e626c6a40514768972c5ec9ec8b6bbb1f80fd76597c6574f5912b3ff619f36489a60645b561e5bfac6f6 0x1524101540b417b2fb5527907a7edff74fa9d068c54b3429db48e75f9a1f31ba06b7806dc928a4dc9816eb26fde92055c738a1ce38cfa1432ee9dcbb4264d887c21;
Dbl 0x12a8033ed5eced46010b9a5721106c24dc333cbf66bf4bbb76caaa14da6bc8df87afa4cc4d3808464faa8d73a072f86faacf975c779b7ed584ba0063643fc4a772a 0x90d53fa011ea712970d6f9123387833a9bbc94795f730df3526d310dd666d35aa7606299edf4e7c5636b593c544214dedd71dda77dc393aca99a98b39fde4c6ff1 0x12fc1057c4508787fa61d66683903784ef436ad2dca4b48680b6c0f873b2ade87a018ce65bb9672f373a4c6886a357fd0f7b2461ea15ff0d9c35c4a57d4f00df27 0xf21816d6567920d7f8b7c025e39374db217a6d01d782a7d266c1baf811bd3e032e925e3d2a7ebed6f98c036b5f15122b2b79eaf86c8dc95c22a917e5c5c2e9caa5 0x0 (-0x1f77464732ea2a8c59d39a64c09422406e7ca2d67ffb63d4c429864a8666eb1d70f066e896c1f83f25d045e27667999649ab3f5881ab36eef74e38f757e955625ff) 0xae075c8c4c5062918ed87d367c378590cf49d284271cfb51fea477d34e9f005a5a56d7f2d3744db56f631b3fcecd2f12ad4bd5101b1eed62b69a1f1e2b54f8d239 0x8d24a3de192b4287f196f06ce76a82927506c5202150bab275aac2d5303aff1e3293fe668aa3efc6a9cc0f707aeedabd600b103c0f8a500a06bd0157269fdd7257;
Dbl 0x14ca3700ebd2ab7f12e4a5509b800203f5ba52231d5b724da953618c5621ed37b61c1fcde14c6f7cf43419e320d3305f6113daa72057f239cada2d7957c00e58445 0xbc42673ecfd54aec5a9b0b70ab8d962c7440f3c7b4bdd9846fb9df96267c19317884ffc1e1223ef4dc6030929a8b19caf018538b1121b03a897011c41cea9b6b64 0x668e45ff40ed0c6484bbd002c3a2f54d7770dca7553f7ee8b12892d1c972f811fb8770805848ae9fb28d19dccc8dacd44c52fa814974b0ab874c971ce889d1f185 0x1d492d8614215263d163beda187f9ed0e277ba0b1aab5346ee2b35177afeaba292edb62d80cd2a8d0870b28a9b9b6fb13ed598a1c6ca1e372202a86ef82f3b1048c 0x1 (-0x623de1d2ed0f9db7eb1fdcd7b204d31c576ed4d95da773cc24995a1460a0e8f081796cd0680bc04f52e75f6027288b2e7e833f69b22a12206094d32558cc3de066) 0xd81c297f0f3c4bef354c806b4be90b9c2cb2aca16b1acd3c734d52758d5e9a5d469a0d511e4edee6c73152de9cb044007fd5b589edb9db24931b0be8bebf6b10ad 0x1306ccb9c9048bee79480e870bf734039d825416a790ab44cf6a05198eb48e67b242d50ce6140f9f46b608106e736b5c4a964281194c246096abd620149d28866f0;
Dbl 0x1bd5ac609258a64dd36c575a7482ab82be58347b2248b2630f41483dcbba7b04af04b48eb12db17446f78c1e88af7d9a03afe1b2805de87d90ac6109a82699eda96 0x97b502b587b719ee249b9809e0ac780e036add6ce4cbb3dd73119c050b8a2ed7080083e84b37f0658bc08d60f39644dcc8386034921f42f75e178659b54ab1170 0x18c473de192cccd8c432317dc999eb379ff0df6e08e72e0db103489f389668ed42b8af664fe08a62291bf7743126f04c815fe08010096bd21b798229f0edeee1bc5 0xb2c717137759d94d785151f00d82ceab940a45f0e6711e469888c5d5d5c376440804f7835c6ebfee83a427bc8b51b57d2394cd87c7ffbc0b138e995e8195f059f4 0x0 (-0x1d40b84577254ab993d8800b92fbdce1e06f4dc8dedc8e614df7fe0321de48851ec129584e081fd98301c2c8d104efac9b7c4ca7d1a40c510450ac3bea331b4eaf) 0x183625a55d211d72edc9bc90f373aff472b39410e83dc93df5df9828f5b6b417f11f9ad14b3b32493b751595a603d28169dcecfed93bb352d52d6f5c39b92161854 0x9b81bbb3a92fb734a0be7a272d57dbd6c653fb405b1e944e11892d8fa1cfef65c149676cc112a1927798cba9c8050ab13e9e03d5a7c8252fce307d6d3648b99052;
Add 0xd8b3288579d7fb97814760ad493d872a8605d2d7f4be08b34b894ecf370bbcd967a2dd621bc62fbb973cb812fed0216d43f30136b6516b2cfb9385ba9c2f24ae62 0x1549e98e0f59f0e88b28c76b10a9b26e92b9e04f93fb8392b1e1ca7dca59a497211937667a4b51a785aacbb3d68bece28fe5b132dd568387f473610a25821fed3c0 0x19a69298dc2c6ed0432fec66021d951f770fd233b422f1a7132ccc1367ba3c2d17c146889c9d1ba6c102b35d288521e4e5121771e8c4ca16d5abf96b79a96f9158c 0xb4dcb74a62dc63162fbd42cf936fa097b498a8dd8e948212b91471e3ab1e597b5eec91d6dffe648dfe0f4d98a67a9624ce2872d573b9bbb02eab67c34332ac3daf 0x1 0x142f5c224a1776cb514ab7ab537e731cc9d9a495595477b88b538f110f04d55afb5debce00cc397ad2fbdeb14e79664a4ee503d4f879c89ecd9e7f9e76991c55409 0x1 0x88b0b06238c9f185e64923a5c368f2a574d6595126709c369ab7186451f4a5a151825480517f813fc57c847c6e6fb860cae1d0e536619f63e872d93970da306c03 0x5bb768e177576c226987f16b041ff5c404958441069202fa2478244d66249db6a850ae18939f9613c5099f72d58314c53dbd9b81e06b56dd00886a196bbb364512 0x4c8c66cddae86b45ab1a73a66bdd674cdb3bfc2347f8792dee7de05460f01c8259525d454da3c7956898b15ea785201aa6f777d4be9001a402d8d66e4f306ea253;
Dbl 0x1ec2e34bf7effca91446c1e66dad19a078295690f142b564cd1c40c2490f1a7f37f3c096929b3a55edd9de49914f3c2ff949fa604d10f58c0e541f7252adee7806d 0x85278bda2308bda9bdb2a3813ef9ae8e3c502c684226ca57e02c779be52748174d626d149fd35c844d79c7934d36858dad09f9fa26c0bd4d4d90ec63a108b96216 0x1aa759343e473c7771d345ec3a0a721e6c805f615160ef39a7e50317083500e0108d2b4a3c9cf1e73a63bb4911740e6a015405602d2c6678b226dc9b7f80e5d72dd 0xcf770d06d29650def4d9d32fcba1785aef4dd890fd916ed33df03040c073015ac431095304e1bdf40d32f3aa1b88489b51511933aea77b31f9a5243eb7194571aa 0x0 0x6d3bb2d05a318d18660670a1ef07395c6544448508574a99f61c6a5e21dde3a20a714a14349e54d382391b85ffded94a6c77a30ff106afc96c9437db4fc821d6c5 0x1d920d18b87eb98b0eb181fa13c62e0bd74825f4e3d9e4377033823cade81e7e698aa60561dcc59583cb253ca5143868e623a409f1bf21deb4bff8bae773b93db2d 0xc76f1f9669ab5cbad66880fdc3020393c9a6f9c02cf1ed4e60b3def7a0768fa4f4eb597d6c883cdd99b6c8e04255bc0e2a119362fb87397ae85a9bf0db2d8a2307;
Dbl 0x195fefdfce9b2580ec1ef0d28886ca2069b09f1570e13af9a9c2dc8f615b30b04f98e83d00555148162044ccaa2180b8149c3aa8447f080e8f589c913ff63743dcb 0xe9e6699f386b05d4346933ee801ddb8b94808b2a3629c63126c7ca2bac8441163d83ed12718095737744544108b45d350b8de8079b75003e905ea9625bcc63796f 0xe8c208e505acd51b190668e8180114fab4e42cac990a250b4df0a03cbcee8eab9722e67710198e88322de36b674f01b8fd9a9c2c96cb45d3bb5e1602b7d14f9afb 0x19b41223aea9db7d589496f92bedbd302a7cfa13e0bfd0426b964ad7038a307010fde80022e52c710d635735244822858a17c11f28b4bbd0ebd324301453c55e8a6 0x1 0x23c719d9b2f767409d60824a494135fb9bade2ec38d992dc7c0cf6e8d1a5da6afdfb39b0022b7b69d938e181a56a6474f5e3047948eeebf9542a1f2981884e9112b 0x141f066cf9ca5f4266eb3ef750d47b91ef84c1f0b705087e24cdb9245c960cd54f881bd195125ffa1415997fdbc4ca81610f0e6f4c5bdf02466a859d0a0ccf3dea2 0x1461bd6e66aff808ac7afa96dcba69232b6df006efe4a420cd9302e73b7075ade55b463eac2974326fb9905eccd8bd0ca9bca2c6705fb8a12bea58e9a28f1e60436;
Dbl 0xd684c3467e6bc32836a966d451fbd0a4fbe219e5e336f0471ee1907995cba604c961ee349160f14a51ffe03affe2279a82aef1ae229e32caf54b2c866584afe49f 0xd955b708461a07e9be4b53f41d140e0b5e7df6ec9a4a0646024f7408b3f2cd54ca852d5222426cc4fc5d9670dc6e5018a72e2bb6a20dd365209aa917b643a1f3f9 0x14ed1dd8bfd2013187dd33b57375fdd7a4ac040cfd7ac92a257894ba034d72aaf7fe6a35c3847941f837f16a9c386877b8cf6ac456c341020f69fe65bdb7a5481f1 0x1090b296f250fdea761ddffa6309cd803602943d9bdfbfeb24785622f89173c172febfc04f3e28ae7ae6bdd02c460d1c645fbc50f9672cd96fc4004aa588c18576 0x0 (-0x7d84f070c1f48436f98395020cb850b5ed843415307017d58ef9e75805dbea081ae36721a1950988096ef1742595ca1454ab9013f61ca8eb9f58661a945fbf416a) 0x59e11da9e88180b504c3eaaca4c1fcf8cf238f83e85749f8b158acd80be7a0b6ea962adab96f3bf7f8e0afa9b2d5580b024c47627fe30e42557c6d265986db4c16 0x6f0c6448616537050dd34c707f65e446fed4425ecfb2611131709ce34c8978fed36d757c6a517765dfc04d39332f70f230af52daa6c1818d7db28e34deceb20a2;
Dbl 0x169b9a4aee7005721994d28bb26bc0a1657c60bf24122ecf68ca17ef60e1e9d060ff84bbad40d85c19e51731225f1434a590103b70c37111cc327bf8cf6eb75b57b 0x1d16e46ea7d93af9273e19bd6d646b2960087d2fde42af6132917bf8e779ab514af41c4d862d7717702b62c100fd0ebbffd37defa593f9b8e108650606c7e83caf1 0x189236f93bb39a35942db05e78835703075460c15e12d81ff195d54fd16a0869311bcefcf5721c3ad2abba095f453e532ade3fd30ab13921f7834f2253200cc2f22 0x107e7701dc88658574a69b81d46cd5b755df623eeb61f1032d937b47a3c5818401b436879bf6afb4df9a76a60cc9d6458a9f64cbc48ce37d7101458b749c51e2907 0x1 0xc4551af81500f67eb87865b145eeda61e27199800c32f9d07195544a0378d388d8cd5fb6bf3512a72e15b89402eab9ae659fb519e2acc48fd3ef9c85c10fe050fa 0xff8e8c8a5b1cb1d8fabb24dd599049301fd510be74bbc7515a6e8ee5abb821db00dbf228264465d9c900950ee4d30d1e55b40b00851016c04d56cfee25d0b289ca 0xba725e8f4b476a2d3a6abdab434cb9cd20d07157c495e1110b87caf2aaf939d5c7cd650234bc5bebeea307bcc938d1c44c3d07aec6ef3da9c041534111456e07b6;
Dbl 0x1911ee60536182f8c4e0e01d4ff0a930ca622e8a4cff8769358091a5966235f17cac37244b9a164b1b98693e6f0918cbcb4ff503f50616da43b3014425c3b55cd61 0xb00391b05780daed9d62ad9b25fdd55f8db210f038bd615638ff9d843959c201716e9c9422626accc538371856a1098682f1ae5ca106891b546846141a1a24c4e2 0x5f4716e9e1adeb02f534c34454baa99acd088998e99ccacd65b35825c61d3b79a2e339dc0d9620dbd0f1bb5a1185b48965f269d76f3294900014b23c55a085d7d6 0x1216ab53a2612d4a4d67eee3bb048dd3672d5c20dab6d94bcf018220a3e40f3133dd32844407506aa3d7df4f7b92fe2397a46309db8391272bc1e0a4c52645f060f 0x0 (-0x28d4abe85ff7183b43e833c2cb11a2c540398d5d0c9168d6ecf6e1b9acd8ce4598b39f7dde7321dfa9359a9cd49124da52f5b781b7f6417adfcbd5a6208e8368724) 0x13a40e82b85aee7f7a79d2d8d0869885aeeb3e745e726b5ac775c3e8abbc2af9634192aa28165a73d6bcffa804ced1aaba0e7304cf8d09822800c6c89ce59fddc03 0xe2bd8a368ac1cbcfa00971413c6f70a9d71eccbad8d5565af2823e00524a9994e6cf603bfa044b14951f7478de8d6d5e8c2991d6d54b18e39f79403699097bb849;
Sub 0x1b2688e28b65ba2b75429e551816f4b072dae0bae03e66e2e92f49c39c85e55bf395ea9dc86a8f1a34ac0733f8915d497ac8e27932502eb4f17108854a0098529b2 0x10e09c0f373ec97fbe66a239fdd3ae817b733c7b57f0059ea4ad2639dd48342f54543e712b0d42dfcb356e1b4d3f5965e0e393a1a0ca27f68d448d0e2c6de50153b 0xc871bc9e6a27b230fe668b4353116c60835505417157a6f075099b1086db4c5f50b7764afd9955494c9537a4b939db0225d3e8ef8e782172a681a5ba4f42e0d66a 0x1a1f9d0bce39442f1b6f889fb48c2ed47d67e493ab9bd076bee2d39e664d67f0c2c2ab581718e3cd011e1556382ab732874b87442946409b2801f7531533bd4afa6 0x1 0x1e97e03a9a07cd603cfc46ecfbfda3fab4b15ac6effb821a1170774d4d8ee74c3b6cd5135aa7283739c3a19572efe09dda4be65a8df811ed8b86ec795e8573f077b 0x1 0x19f4fc69c66b2264af3db9859fb00a0d7728baa3892fa5d04670bd10e772a84504be9fa0413f9ad5668270654d5a8d49fc846ab25b80876ad77b3b0cb64486a57a1 0x17093565aed2a07787aaf8b329b0145c44c41b8b68846712b4fcd60f5c24ede9be7c78be75f8c25054022580b88bfbaee5387d1d409ecc93fcad349e45fdd9c17bf 0x162a21cbc088e34abd65b52334e171c135acf02fa6c001aa4a6bc2b73820c1fcc2486bf3abb8abef1ce6fcbfbf1ce60714c05095b313fa0b05f85dc86c42224f6d4;
Dbl 0x7ba13f540eef3f688b62d1ec7d500a6fb3d0d62b88824489d256010da53264b106c1ee2041bac31d2f3330bf7289e5cf6c0fe62aef6d07767f7d742ea863628969 0x1b3ce21b39be9ee907d132be80e317277d28cca870e3179b68135b5742828ca84d5f1559597e9b7c55927d8e2251af6d520d29697303bb7771fa3741d54fb79e6a6 0xe7991e5402a8e05e6ee0b93135e97c2a5b7c2eb1b455f5b612a310229f08c587813c0a8e9208d65f2ae55048b5b311648b713ef72eebb8750aa4ee6b4ca11b272a 0x15a3b9f3fd802a96b6956f7b7cf09759fe4a6fd2e70cee033c99cae29ac5a78706f52917d18ea76375a2f08d2aeda9f88ed66a382dc66c7f1b4a55cc571e2d62e94 0x1 (-0x14a77f653758cb11e80ac86ca0cbbc8c2a46a5b93c447c04b50fef2c5a4005f56dbe0dce3eb57d00df8434fb85874818a7815aeec7dfb79f24ee7184448d72d242c) 0x1dda2c35bedf9567e34331e1261a312d0ede6b68910ae1e4945ff8d821783b32a73467761f6678f8fa6748cb8d65cfbf3b63b03bd85e5de8a322a270de03f4840b 0x539a5d5497f1f727f609a677d64907dfb3bb471da6db6489d406453a43274d5f149e5ad7757cb9716f8238dbc8e8ca19e31d65b1b308e52f85558e64602a8daee0;
Dbl 0x122495ad82c128bc87d07403b1ed45cc45f0f7e4628c0f6617846fae40d5a2672b7f722ca91a0ccb0c174296464cec527ce200b5eac8a77f625c2d57691796c4bf7 0x1539774d76990a34bc9deceeb8623657280ccb829965a57742bfb1942727001f8f1d0530cdffa8e56c6e9e411286f2969dcc59b597ddb576e45712d811a59084a00 0x1b78f57ac3a7055a1d42714b703a1b11bc9096f320c624a06154c0349254dc2ee57fc896431267f0dfe79c4c9fb839ff65316ded1b89728154b2fdafe745229cfa 0x6036acdc32594b44b3345cfc880e0d0551c0125d77d72242553a9c31b5b8c88be4210288b7ef296e923df4d0fcabcd6b440cfb3db2606008da32469c3aa2719ca6 0x0 (-0x3523b718fc1574d9461541863d949f99d8678d90634f7085e93a39ee338fd074b5113c5e72418ea8f7004001fc5eb17095879b5165f92950d0d357aebf774981423) 0xa495236b59afee66b2637ba4c43b0a4efd00f4d6f5ca351ca2db7fe366d43cfc64ee0f0e09c85c49af52b90d0732e6075a3a3b56452ad1132b56c26c56a3096efb 0x368cc0c699a59227998c7f6da0235f1d64ea9df5e0a56d2bbab23d2d6a10485756366bdf9de9ae7f6c52ebf8d88b0f3248e8203efd1217fc2b03d5b80b55b2fdfa;
Sub 0xf970cedb0f7a6c672bfb0c6012b72d46ea542582c95095ba9b9d9ff0fba17fe300684f07cd451d5d9433ddc3ad46fcd2e9e6dc72934e9742fd1202286271c36bf1 0xe9cd179642ec1a59c0b67249c74a8670864647d856b1e2416ad26fc9a492f086b945c3a6f6e25d467052e86b60199cf8bed5bb1419389a951b542270e05124b00 0x1eb0cfec4bd23c280782864ad19feadb32aa72fb7b9b4f4335ca5112f66ae54f16d6f4936eb6a44c7f7bf5c816db918ce549cc78e5685f519b74466617ed7b8fa82 0x144faa35e0561e1a62dd367c6e9aebd0b786853ac10ef3950154df245d826d2f0863bf6d2708c68825fe4b58a726d8f9a50d83fa83c47cdc4f3bbeb5a0c53f5ff00 0x0 0x8d11e6d0b28c9e61fc4090201fffcfbe3e3053a85d5517bf0a02f0931204b4bb372f07ae680aa6fd9debc65000cc29c0fe9252a5bc55ed2ba977af02e896228c9a 0x0 0x44ba49a98bc6654990598afbc95b9eacd1d000c2c37a19efd604db20cb68ecf25ee70088ee8107d286de1be57665606a5cc168d02069673294bbedd1530a5b4851 0x7986520de5777d2e0857f8254ba78722d7f879331b2a37914e9de6370be5d2592117d6ae578ce0993f757bc48adb5c3ec049a6f67aa22990352e42175dc056f985 0x9e537e92d8f208d8e626f5a9cd505a082d248946127ed22ee5b32899b6f632e8b7bf4ed7cacffeb81f0a3d31bbebec952d6337d18cc2beee5715b9fcc303b1887c;
Dbl 0xe13c6949dae900ff5cd34b7a134a78722c7663ca232d9320e7401ba374d73d9c8f446ce6293d7f04ee51e4c052367e01affc9d2fa5f7979ba3cc5a3931b0be441d 0x16cc2ae09ae44725bf49d1a85b032dffc82c8b3b10d1b8a255b18f8653a9afe833fab7588d724a6af268a1b006b374715dab562fc25ea907e8ab57b2e57ed2502c2 0x1d49da9a73261debf9fb6c5b93412020cf45d5638afa32629ec45bb21a25da6862240a231dd7246b0ad91f521becdec97a6461baf94294be07a96ffc6c573c75c9 0xa1da236fb5ea4f49a76e4c9eec41c86a859bb0cc784f93febb942e975fae30852be8e6b198497f25407b13864aca52b9b137f8b51ba8f92ac6ffc6f8b617ed483d 0x1 0x1aeca0276c1fe23bddc11fa89f8d07e6fcd12e41c0c3a34696168eea9c0959e3b3de90ea451a980d17e211e643a9a4d310979f270ea91b970091b31f29427f52e89 0x63159faaac5ceded87e251a2fb3e7afc4d4f1483f99df6f1b0bf5550836d82cbb3d541aad63a7e91b4c63520593add13cfbf4d5721d3414990266a5448ea1e2d79 0x4733756b539ac8b590283115936245e2f63d69edec6482900cca7ceee19fc21b346e3ffe35e199d63e811b6dc0bd9a002cacce505eba0fef97e7b0867ce49e0d62;
Dbl 0xc8c7c723e676b19e8cea9e7632354dae885b436a104305630b052c141e1453d2cc00dd7b2ffa4707accede8b507a7b15ef9899981219dd81e0153a595fb1793785 0x1ed5e43b33a2f1bd5b25b81c55d72bcc9d4dac187d132bb2b0ada8b5be85b147d777fabcd609ea11c7c00adcb80b111429b2e4b397c1e2a2de16e1ca52ce54b6736 0x3bddada08dcfe1744c09f8444b2bbb86950c75fdf3e06a05544fc027700871365a97b4814330f33c6f6b11e31b2692aa192c7aea70214ef2ee8f2c94f631cfb7c7 0x17f646a5674155686424198c052c02332adedf2293be8cefa503e6d09523fea05c82bc9bb76860592aa896d34ea8635d33f8717c2a9cc6650a9475e892b07d99b8b 0x1 (-0x2f49ebe798a6db9eaa922f728a19a8150af092f5e60d59700fb2460a6a801c2248b32d6f1092b00f14419448b54f42d181561ecc66e0812f715c6faa850e91defd1) 0x4ebc6187a6694bb29e601d7db9aa465a9c9cdea9fb233a8f05ed7d9dded1cadb6bad0f46b1f3f933cfdc65fa65bdfa03366f49e2a90de5fd0263347afb4dd101a1 0x9658d22f8337500915fe285134f08e6adf9b00e681156349fc0654fdc269ee5067fb24aea2ed2d2ac1dd9232372f7c5ee7556ac56cb81aafc709f0d95d14e08159;
Dbl 0x1a86546e4825a40975990951d340c59b05e3772682762effe6667b1274a381b567f4734a5519e174c9958489c9c2fdb7cee79cab7e539a10a92b3be97de87a30e97 0xb7f47eb4337790974b9f89582accf5a7098ec870a8e30027e11bbfb2d3f92904cdea29e1c38bc5d9ef9e29797cfbeb81d30d6463f26c7d2fbfe2325f00905b5f45 0xd7c2574ef6cb8c4ffe140d4b38e03ee0538980e7960a449a847638317f9b2c4bfb9ee770a3708fbb5f89c783cb0f1ec41b566c7bcfc260dc16cd237e8c7a38e756 0x13569c4ff06b78b3e66bbf86d32a5c722cb4bf917284fbb0329becba91461eb78a99581eb9d12db428c62845203b525c0c820e6d589b1acfe218bea462c54f007f1 0x0 (-0x52eff7695aad2bf33c8296c9b7df4c8fea6fd61b2d6695b6f43cb268698dab7564a4bc00973b30899b1adf2e521182793287e709fe05e43945a3aed6f18a6cd1299) 0x15fc7d172f9ddca370f489b02191bb3580413dbfecb7f2051157ea720a64768ee2c09257fd48788499b6a65c32a13dfd3a55756f07aa3ab79640a66d83783d350a0 0x10078cb581badcfa5cba2fceacae95bf0cbd640b7e4c95baaf112d359a676e5c35c6bc1e2c78db16efd8514869af4af6b58075bbeaf0efea0b851918fb44c91c1f6;
Dbl 0x758b88a3bf8687bf5c2dd5b8678ca16dff4dad3fb778b01dbdb4a82b67a4a80208177baa3dd7fabaa65512a1513c4238a839668b1ec1906f70efbbd2d222d24876 0x1f903dc8026a4ff30be94d2d716e0aa68c86b0720d95b36317005515d06be9785b7c3d07314d4039663b7e878c7830816fb81b0478848cdffc1669e195bb0cdc5f5 0xef5039293036d7fd2b7959642a4cec5f9369e3c7ecf676192f870eba21e955af92aed138ad71f46e624d8c7968230b487a3e94055092d92fd33b47a7b5141623cd 0xbef0a2340cd291668d0ab68113ec4b3e4123c14fcf87c9f671166e55cd3a917f1626596eaeb7c2438be64100b578e36ad78bb41c6a23af2ffe7b9445a4df8d994f 0x1 (-0x6335c6655c7d71e9ab1ec9dd73c223e39b9f8cdf642428bc3d7979ef24dca439e0d4520b832460bcf941b8ea59a6281b1e34e00f8ba03db390e82f8cc79426c980) 0x1afc6b79abe8ac345c731a01551aae2386fca82caee4e7fc3e3b05810936a27bb317e3949fd323475df60571c5875f57f543e4c26ed491b3e0d601d5ca8369ee1b 0x2bd60659ea2e007b1a8c3ddf6447bf5d8b9b249c341ec41600bb5d29ba31183588116ab1a48c394cda83bc28a073c3da5feb2ee013a60c16390fecec106f1e28b9;
Sub 0x1786b84dc898b18ff10b4dad163dc3cb7bc3cce3906524d476d76a9936b8fc29eca6310b2f8b3ea32832f7bceafbca2dcea182e296c30fd215ca55d83daeb88bb78 0x10869a6f5a713f2937f18a6502ee2f2f5946f7df93feb2be3cfa0a2daf59ab276c65ee59f043763bbe97bf3ef43a36132027b29798de6f490b66c568133f99c39dd 0x770e90b43f614f999116ac6de740cceef837d4371d077efdf01aec2d05f8325662bcdaad00a16ddf4f176e01981a9cc14d1e26d6e8dae5e5e7da22256511cf577b 0xf09a358a7f910c9d3f7c2c86e7fdb77333fb892799700a4da064ae821123e50ef164ead4109c9fda7a3bf48983dfa6e4f90686cdfa61d96f0afa479827b7318c18 0x0 0x1327e4e796fa0fa46f0f6940bb0bd14b485cea29fa055f67c4e0d28ada6534a47fd2285149ce41c3d3ab9cab79fe0086e1d4e6793c6c363bd256d1f9b29ede8088f 0x0 0xe1551e8f293223264666a296b66d90ccc7d1f1a3d12d881e54e48f4511fba103b0d498f9e8b6e6f489450df3840530c6efd8591a24c09fe1f3004805d5dfeb1216 0x114be01b814abdfc42485b2f530177d99952f21d4ca4339879863bf15233c925f29be50f95c30db07cea57bcd6e0fe76197b08820d45ac9f98ef9d2af2b648734f8 0xb0e3c5fb4ad3856a0275d4033641da538a9235d90a4961418110eb9bc8114db982f466161bcab471011fd5564f16ac7c2cec5d8130da37839275d8154ea0964808;
Dbl 0x16564e4364902c4f2f297bae321a3cb8516fb682acfd53b6bb443e23b7295733e538bad584f3365c62202f3e5e87baedec4a107bb6337e6afe29a9c38f2ddbe400d 0x467e30e645eba4e6d6547c408f641726b3581ccc3a0cc4c314cf4546e24b826baffb7870a48a685fbfbdf9c58662ec538e5ab9c0ff954402afeb6cfa924e4bf5bb 0x55bca47a74b04760862ce4d51cfe34891cd26b2182dd42165a2eeb549fd239a1daaa07ad04305bf828147248f94dab0c14cd00ee92d2b9ec822e123f2467123348 0xc1eb760f61284daca8c42a0f9f7edbcee117612d05de6720bad15d94134f300b16636d2e5facfb5c29bdfa29bd4074de74206fb88e51b08e0680e986a1ab504422 0x0 (-0xf370e25175cc97297cd15b0ae02b8d44a745e294b892a0228ca570e6b5b6216fb4c99e2a80bfac12084d56c4deada75f9b6cac5f393f8f3175a1d8c6aa3e1be826) 0xf97946213ebdc083a39b905f29ebe3293ead2d6c9b98e69196ea69952b1014c908048a0f474df11ad6321ea3144ced45c264df0ed96ee3facfd8792c6cac31e8cc 0x875ce43e324effc41004e53a2faf488f52d9ee0f5c3746fd986e320e1196f31a83945ef1e54821665c67096b4a5fbd945ef0ba57d080470118244edaf7c9899509;
Dbl 0x105bae3a59311d705aa39003a7ffec189f5ebd297ad7941e4965ac1a972dcb7b6fa30059143c0ac0f56ce9ab5737297b3ce0d43f2fb889b6d497d05510129f186b8 0x19a4f05c5fa8eff23baf8242001ea3b6aad50e18546d24f322a3c67bedb21e3262d0c54b519251dbec013485b21240f5544b0a3508a220dfc1036684822f95a08d2 0x137d020f4a185e59381c06f4751bb5361f6e629bb9751edfbb7ae3b36e526b3898477d4006a5792cff453b6106f5dfa66e4715e32ba4f26bfe483a43ed72e270d91 0xac2f2b204b5ca5c31b5c58208d79dbbc06073b46f33a7590ea92dd8807299f4582ef23bb8b654aa0ffaab16a653edcfe49aa1670757336069fb504b26f54f1ece8 0x1 0x3a8a0992ec3f1bfd6399d862508c97888a0e1c0d9e86869752705016f0bd79d96ce65a5a5a08376ca6b7f35b8c6db01e4b0919e392f852b502bba4f53ebceb4c48 0x85cb4e4f9a75922347122654735d0a8e310dfa372fb5fb9c06da29f6cb1a6cda6aa977fceb5338237936555b7684d1a080ea69fa83aaab3ef4e80f7ed1b89cd008 0x5804e52d396ddd3c74b359c13a20ba7476c63559b90bc68ecc579904f0c901e902eae201496246e462c6276456c3e79fea58d37dd245c91afd8816ebe6b6ed8a19;
Sub 0x13f580fe828335a7596aa251badb58650690d76dd9a36cea3cd97c48908efa8220b8edb339afef521f76df0172dc03b1df2151ef7523e66dc92e9d1de5acdf0ed20 0x17d7568d2020cd36b19aa6ea41c1bc1e0f491020ed1b002490756b23137858ddf4ee02f24f9e109ddfb3aa183c334c3748a2f30d004812a83b9cf50f720907344c6 0x1c9e57bc52ef06e84ca372d268d738bec8ff793a1e9a453b255829e6bfa0c4fa3d3be15de2e0a246c2da147a58f3f5727cc64dfccd020a61e637daae7c31a4ae9dc 0x1cd99cf3f8822bb8a14db57be5ce7989b8bfdf7675224ce922e5b58da39c5546de2c25901f4413e0c4d8a6d75def4be0ba81728085a0e378566717510268e6c40c 0x0 0xd3c977bf438afa39ed59e5549bc6a5b66ab47d040dcd0f7d08443f0f7ab695e8726b0956a135366597152a99f9810fac667d5a9cc89ca3b9743ce9c9f136744b6c 0x0 0x84187350ae620b46b3615bd56e886748a48c0e78b0c0fc32674275a96f8843f9100f8a9e4628602958d00f00ed65d083ae560d294014b81820a700ec59245c0a62 0xc72e4af7c26452ff1328b867b64a34b27eb8e5ed63f9ebfac2e708a4c8f22549630fbbf94a340d256a1b41369148e09a19fc76f8a0987ed97b42a1c472950ec6fe 0x11fe8b96703bf9fa8a05607593d8676f2da6bf84cc35e0c1c7d25de34e063f2d4f9884fdcb8500ad67800a361542dd854e8b6148efc7a526d1af3353a220da59ed;
Dbl 0xd67f2b4ebd60254a894cba0120a9e952619192fd9c47e4f73cf8959f0ed99f0595b900e84452248b56e060caf5f1f2601cbf58213c04bf9a580d6cad2544674e91 0x1eb00fb9cddea9867de9c9bf1393d3156a0deab2444e5d4dbd266ec8285565e274157140e41f5620336a45958f7dd8c7858c5e2c67260081a0d06d20334b8ffde63 0x1b3866b7172f7e2724eaea2a884ddd5b0b963699578adfc817f625ec867a5f62e9fceba8fc15d6c05991be5c6d3a7a1882662a7ab4269d879b7c5987899c8528415 0x192746d3524223b033b0dd2b2e2de908a53b256ea8cca2d6d34efc5aeb22f2fb80d891b16b7eba7dac496482acb5736fc31694e0992212269acc87ef3ebd7736662 0x1 (-0x1d4f0bc0180f988b0bd8d694c3d1b4bebed7f961a5dca7ac6187c8a76acddf905e50f634aebc7f2dd56e85bc7c10db6ef0b3ac9f95f852f271d02cbe0d5a94d9fcf) 0x59dc6dc9d20817c9ee5aafe8f6848cf49ccf3fa481a6dfa7ffbc43823afebec26aab564cc38cf3af5f5ffe8436e74602548c6acc43f6f310cb28c8361e811bb9ce 0xa89a9f90f88cec3df699afa6c13f3c49bbf97e09ba460131687adcc0b08e54e502c70227fcd61e29ca30d06e810ff1502ea4b91589d3082c06f0b4ff5877a0946f;
Dbl 0xafcc2d87e34eca3e38ace509577443fdcdb5649bcd614067475c5d9053534c4cb0ba44397a502ef3580240264d522fdce76066059ede58b2233202fcb1f9926072 0x1a13d0b137c8c54db672652d4654e0c9e06569ef963879491dff1c6aac786a63f505ddc2c917ed2e0b97fc669118da3ca8138ce8f2f952bf9d2bf60428825ba98fa 0xd8ca8d22191000b8e320b6f2c75186df8335acde084d185f48186a511d6e51685603937e8180c90bbed713af720aec12d3488323ca43ddca2cfce24479c96c11ad 0x49c3f089615e438c7776491cd3ef24b89a880c2ae15e4049f27525d7bdcfb7e7f0f937e1b0768f227d2492efe64fe8add78d143742cadc203a4771c0ac93454569 0x0 (-0x45986e7bd105b683177ef12af1cb1050198e8d4709e4a5e410ee3e77937cbd151b20811b90585a8e2364757eaa566b51ab48e19ce3f2604fbad45ff52647f43d3dc) 0x3c5c648c30b8860f4f575a9348c34b7a7a6605cb0f4ce370eaf5ab6d092a3b61aafdcbd180a280b4e9f8ba97c4297eae575c1564fc110353b785a467fdad5ca2fc 0x1953e35818123c0f347afaa53de578b827e81a1b41c3dc2f7e2a5ee25f03c19f5acc2b5372f07db95ee43b518b2231c3532d350166ee9f66207bdd81624bfc4d00;
Dbl 0x168b8bd2ac410aa548f975ecf49ba9402af56b1b9534e8d4a396cab424dea2abd7c20546c790a9de4908a8130dc38c16239f350758cca4687f9e59c746c1073a4b9 0x1ed33fb843b78002836b29c5ce9c52762d6d95b78ff5b09e516bc1ab6a7bee854844602062a56da5a3a42f05aa2609357cd9c0d4e1f427e8ba8f08b2374f2a85473 0x13528652cbd024f576087426e781839d97afdfd984d3f030fd03dde3b4d9f82ffc035e385b405f3498aec42d972f64b6d9d23f5ab131d2c1a9287b821a3e7d0e8c1 0x1b4090f8f411454b33073b6777b88e53b2f7d4380642c8aacc935abf41fc7bdeacc17da266727f8867f3cd60e6f2d1072b39cc1411052ad6e29ced51f1333124486 0x1 (-0x2ca929ab68010c6b2026e9638439219686404d2f92559b4e0cbe2bd06a96ec8b51e8d0a6c3f1668ca3d1d5c0fc1bf336d8ea7095a6c84a19356c6ce6fcc562fb7a1) 0xfe240cac605871d41a4534f59063090d6cafa6cbcdb72796297d48e392a339f60607508c2bca1e870b9137a59f3bbe00ce80d7ed7afce3e34203ea5b98b5e9f8b6 0x13333b34c1534006f1fba3e65bd7d13cf06eddb79375d70c09e437a39dff6a2f664e5175fffb69a47c7396c064c6d7b24ccffa4ce54b581ae58e973ee80ecf19d98;
Dbl 0xe1a57182a9154498dcaf1b92151f985a93aa92b574e33d17a358b5fe6191c2678734b14a9fb365667436c0b4de7946faa8a296d0ef1cb362a6516bf46534f6f176 0x486684fc3e98b6c148926b95808bc53e9e448015f2bd5de7e6ed09620d345958965a9c989a5226d7da1deeef01afe23005fec1fc6fa4075be258f350b4dc8b4423 0x108398c45cf63d8eddcdc1b85517649bcabee02beb8fa7777e5a99b67e61f0a13eba9b8e841b771b9cc753d30f79f4684e0cbc46fd3eeccab6c454f896683cfe544 0x1a4cd7687fcdf4966ee2030c7693962243894db630c9dabfd2fcf11549a8a8efbedeb656d9004b3826025016ba0b0b127c79d4b51af9e772fc69797d2c0161d1050 0x0 (-0x480c994e410f258af5cafc9f34c5a8e0a8a644fbdf91f9da6124d2ddfa02a9d6ab6a6e1291f86e93a6eadbb37dca9d879d0960e70833964800e64879837a95af0f4) 0x63721e3998fcf9fa0866fe4c993a599917ccec2870b48e2dfe3cb05b5aadecf24d7bbed563045fe0a44c19d6139606d9e878fbfa36ab7155f8234ce035df548aa5 0xb9744418313e85fb8b5ec428f9239e121c883931c654a119e58226b969653cc156384a1a90d36b1263167ee401702b130334840bbe8d5969ffe81edae0f0fff925;
Sub 0x17a432da7d2021679fae2376d5ca89aa23a93df05a9e145be22e5f97671603422d504c98cc3812fec31c5f94d6fb3b1497bad1ddf6eb7a87ae53d7c1d82b79680a8 0x8d3ebcd9f82d0326699df022bb551663fbc1bbd0323e8e8f5cafbf4560b563aa575f055e254b1e40052c2e17fed44d8fbb911e4a62d22256f061bc969ea754ab1d 0x17d9016a749d65301693f50b2fe35a6141e3a9ad5180b20f3145f0ed8850234d1d8d596246cbbb46fd774e650000a7be2207a1b9e359a3a491c9bfcf3fd5b28ce17 0x1bb27c822466bb39adef47b72c536aedaa282c445c07ecf588a3d4a1cac7ef5ae3efb973a75070897d4f1c0d702db94a04a6da3b20cd1e504f1f736ba1635369905 0x1 0x181e0f6f58794b1d77af42cca1a682f8a5ba81b94b9b81e32c4f4e0b2acc90c1adbb9513a22623f7eb11fd12dda0ce28727cb7948ae1e9d19465f74d28319a586bc 0x1 0x11d15b7ac5715feddeb08132520698f8be4a18271c2028672a5419b6d36203b97d67b5d2a2f0f9422bf721b71e640ce12fcfab66626439b7ae5da9a593c357ae035 0x117753a3a431542a831d2802aa77eb5f03d9aff074351e66e622a440aa0da0560bcae6e45bd8b279fc4ae39ed695b466c0c9aa1d3a623ab356aefc5267a113d3e66 0x1476683fa3ecfa4c1e773cf36189d523d590b9c85433f38ca3d67cd3cb57a40b7a565903a3219719f7f7d39d75a146d5daa0c554ba2a369b15cdacec94b6ab3c813;
Dbl 0x1e9bb6e331353e9f285449782b7ced98a0be19848d08e9aef572031b2f35e8cde02c1af5ee4d41fd30c031d9d80d576725e4cf9ed854be33d36df8f2f99aa848298 0x94d04140ab30fbb5284cee512a24fd23ea129a3cff12abfe9244d6480370be0006aab79d5cccba4f581c691e9cd6ce710c2001ecca3efa66fd129796fd4cac26bc 0xca105772cfdf9a71f154b7fda788350c5ece5636e06598da33ba0a3a6a30f01559c4cb681010e0a8ecd4941d2823b9260d61ae76964df15917fa7bc0ca133baad9 0x1f86e7b994cfc0771415101d19130194011af2193332be290ca6ae8fd5d44a5aa50b44dc0c87e63f0ad0fc4f961fd7f1eaf711c5d989327eff34f24ffa15aa88460 0x1 0x2650a56a9f2127f3390e55ed3769cb57eae4c60ebd60172645c5043c353b99518aa6e9230c92e933f69a64b68204eb8d38443b82f32776f787ffc564a6af4bb2c88 0x1d46eca1ca6f25f928daff73527c5b64e76aa9242c22a45bf9f5e392dbb545d17e3d818728719555e4e9d3eb514e9a25a0eaa513f0035f2685534549881cbf6c2b6 0x1e27e2df81d1e587423ec975052e9e43127be0992906fd54b15dab530e347125b9b660a567d5b2f3120a79c16610bad4329a26c5687bb3b97f228a598c4059d1ff0;
Dbl 0x1a3271110e0414c1e7a94c70cfef5e35fed3e963b927d37ec0272321554d983106fb7da4ee154636b3f6adb0d575d6f44cb83199ed96aa0678b60588fadc05d28c2 0x1c782f3db939e07977dcbbd4e09fa3f2ccf6c28b88fc34523cfdbf449f1f0d525160b882ae1f1c172cd985f0c3e0e9a380c959a9158fd88454c3b32dbafb4db95f3 0x1ec5c915178f293bb49262735bc7e1b56289996954439c7a2e2b0f6e3b98256cb1c637744582d87e25df175c4d2388a71acf652b5142d2b35b2e800a5c91e915458 0xcd4d4d651792f41daa813103202abdf71aa671846f4f66dac268e1fe117fe8daf09f2f727adaf8dc8a840a125ec83438ff8a675b71417221b0d764bb4d97d090c8 0x1 0xc91565cb55117bb853997ca33ce220eccc2fe2aa1533b306825d3dd734ac5801dfa6646f19bf8e95a154c1aed844a07c8b850409604a9df2af2b0875e1a9f84d49 0x1572473e9b92ea8fb37a2216ead1bf48077a64ddd7d63eb1bad7e22dc051121d38b3daf4585a974063fba9af1a550653574b2f1ddf69ca903273904586caac2b067 0xa8126d117566559b3ccf3a854a66d20298f990b9b8488e6de4d6c9d92d561ead14941bf637aad47e893380e7d840b266a5b4901d2639c5333bd044338af67807a1;
Dbl 0x1aeb8161ddcecd501e36363756999e0d7f47e8542cbfb56d5db27e78cd2e01ce214fb55a05225f07336e9f437848b8a438ede73e2959fe97aa967fcf3126d994aa2 0x12aff7ee80d8542fceb8e1be4facb5477642adf30b2114a5dc9eb4cd825854daaedba17ed9bb9f4e6eed852b946cff02794a70c3999b7fc2876b13c444c457500b2 0x19ab648db5a8f5cf9ace216319b85198e8dfc2a2be1d1fb50bb12dbca53f3b7ab3015d9d10575c99df11863b4d91912dc6a4e537caace71934de4b221e0fe6079bf 0x9c8374f38618c49a923da1690f2eeab56b414987ddb1fac605f0a771cc6b877a2851703d4637cc8bdec00c52f73eaa1077ee8e57bf458c1cd589f697636f669541 0x0 (-0x1835e9993f7757e153d191fec0aea3b6db512e0387180aa1def67c72dae9563dbf6c6c66b8bc88c169840503d5cc738320d4df9d7e9b936cd5f5c846dcb9d1d5168) 0x16a5777560f812abc85c29fda5657d4f098c3a62301a898ac9b5fb4ca3fb5c286de259e404360f388b05a906d9fc2c7c63aa6ea83a5855ca3ed40880b8b6fc61e14 0x83aaad395424768871023f93ab555084f384302638c49f4fe539fcf39b5409ef9a0edfb15c2e99ea71f1f25aff33b13fd9230db955df7ee47b1e28c91c160990f5;
Sub 0x1178c11b8fea53c805cbf6a3a166d24629c1f0a48de25c8c01ca20d19d1b2f68b13569b83d822ec2fe5f115445ec376cff09f3d510155d07559b38ae435e78a26d1 0x14f8c4a3b60cdc36e1e2e7201137d6dcfca27eb5355aac91308356b3ca88d30383a8132428f9deb6badd594784b62f526d8bb5405b763c8cf83c1f2f7c1b4ff86a1 0x7ac7d8e50ff6e7c2bd30a36ff5ae3ccb52e1651a7d52fc81a2c43adb348a2409e07fc8484e5995d7e255d242195aa1fda6867fe472a4a4102a1cde0f7b115cd95b 0x1db7334acacb77f8ecd5fa9e3e74de6a79a02f3dd5c66814ac1b5e19b7cf81d72b338e5ab0c1c097b4102be40fb6cfb00bbebb833e2543358f2ef494c8a90757a10 0x1 0x6479f0e156813e131defdd1994a7bec3218e7aaf790c0aa8a7f32428c51a006d3318cc8f23ca0d8dc5da34f81f2cf07eb673c385d83291e5dab7bdc61a828f434c 0x0 0x36dbef95028c0cb02a7eee785fd45af98f3bab534a2627cd2bec4723a10910c5bdf5a87f02344a989a35b82ae05f2005bd0c3a957412579e307f6fc5a1e846a704 0x98a14da24f4e630d79b57f39a7bf5445230872e91cf1a8107584632622a866221d4a4bbc34714743d78f508f929dd33da24ff8eb8d46ac50428796c31ab0238e18 0x1039759299c7379ea32126ac8bad701b894b5aae10df733d91fdc58ebdeb16b4ce049ea6136d3be5ed14bca555134a8dbfa3abad3388e68cf73f4a7bd0273164c0a;
Dbl 0x1357e4a6e694c4a29ff0c1156cf7c580a2520cd3f8d06c0017db7581d0b680f515d1393744ef69460f92a673c0aa6fcab2e4dac6a2658abe898ea6fac858f14af05 0xbc1d5820ac15bd515717be2af9c2937ca7b8d9a7203439373f7270c3c443757830ddfce80ff9f3dbb4304feb0fd3b9006b3a0579b1735184f3d7e0f719420d84ae 0x69c416546f3076e96178369f5422087f2fa35121172c57aa4a1ca42376845a5be0249f3b55110e730001b64c921289d6c2dc690ddf7b8ebd889ed677fbeeb44b44 0x936ef21ab4b8061cc716b3d619bada53226f11ac35768fdbc8c2fa78e449bac009a3355a7fa3f78ff9a5448d3b8f3c266d814e8c05f0774a8fea1200a872f201f3 0x0 (-0x1ff48e7e10ea7533c65ed6708601af7eac72c37a47e14494c9616ce01b7afa8e0d2f1569883b37ca37f6682bc96ad4d4226971c8eb69bfb1819ed9d6b09946213ce) 0xbb150efdf242eb509364f06cae2f929bc28d9e6febdc8973cc54d0851314adbbc8531e121c6e01e1eadbcd5fae8e2fb70af416c3a45ac49c34aacc3637459cbbd7 0x591ed2d986c9a14ed67fb6140edc23bd1fc050e85a214cbc79e4f91aa889580dd0a1a4546c2c6feea589b2a93dfb006fb9a6216dd54e3aae5d6e21ec5b6e05fde0;
Dbl 0x1a9d3347c9247af72eaba758256425e346b04e11b28b05084c8a6ad2acc3bb20901c0f0cda768d7ee766125f7ccf0a92b246f4e73361f6fe6fba9af7e71e084171e 0x18ccf0a48cc1dac2aebf4f90c2d86f51789c8712733b878184f783cb612e3a37138f6bede97f1fd4285ebe4568ef441be7f8808e3f9892c5551601e923dfa6b6043 0x1730eca07aa338b36a45b824da386418918c51365b771480436d1da1b1a03e33da2f2d60a47acdfa8cbce44d16f7280a271a501dc89cdb3a7839573b741de439f4a 0x12f4e4dd7dff811266b22c51ecc3b9e651df0687fec7bc11eeffa340db15fd206f7e73e097807f6992e446b9480df7741ebb1fc95b7ea252fa277c264db47a2246a 0x1 (-0x1f6adfd3bb9993c0243a49cf8f8a3a81e4f5a3e398fe55ca7d5e6674a5c83428205d72f9d6b715925e4a29968bff96e3683be22abeba6813e7bef27e4792982927) 0x16227794296e6ff60f78e4434bcad44bb43787c50e00f9494cb4d0cc0732449e55d438ce4d5906727143676179a2fb3537dbc5cb2930aa87b9dd89723582580021b 0xfc419d7a8566c97c967aba2ed0308be126970b0994749f6b816e0c78247fd19e3818dcfc17b4ebf37f838e9263531d9922ffdb806a01c5fae889bf9bda500a2022;
Dbl 0xee2371df55773704aef5e389f29d05771a8dffe21f9b5535a73153329241824c284574a833a6354210010dac4a56c233c3fbe0b697a5a08f7542247293ba6233aa 0x1fe9b7c30bf34fad51c0879edddda874828f51b72a2d94fc7ff3fbb9e216c72485c5f0c0a3011c4cd4e95dc18c3b40870a6a660bad9f522dbb46f9bbd26da33268d 0x167fda48fc5e5e113aaba2c6b9ffd2f3f9467ec20963e89c8aa991de032f345184578940f0cd2ad4a1c0789bc723280d4b8c94cc61e4656022cfa01f34caa1055d 0x18e338e180ce8b155cfec7f1e4fac6dcf60d355b490df285050388117f1773128dc97b2d467e038753756083dcb40394dd8e1a8291f9409799cf082d517203839b5 0x1 (-0x2416ea6fe4a3739f0358309a7f9c29c6300743ebec9fd9ba87ecca914728772b12be1742da0fcb89a690924ed1aae8e359f5477a982ac681a634d8c5554375215b0) 0x6ec2f651cc50fa9780b2b47df439ba497e5bac9b0ccb7d33c75e8ee03dbf5fd395c0f7a0163ca01607da6d0a452e8da95a8a4fb160a2916b71f58b4ba82e74ba2f 0xb9358823776e0586b07a680b6860c6affbe7f7e7ed13cfef919e3b2da33fffc99256fd3f28ffebdaf57d67b2ee5c4aed6257cbd540c41eb679ec0bcd4d76c54375;
Sub 0x414ac6ccb157671a499b787677c20f0828e1438b3fcd5a0ddf8fadebdf0f630445947935e4681b90dd97b1afca9cac36f7b9c14a834b9103c6cbd0417c9146a728 0x15c145ec3a2af3cc7d76121a229e0e87e581163cbb9a70804e973511c71c7dcfbfa9434208fa8857ee78f171077ea4dee4e57ee91230b0f28201c06526abe9104e4 0xc567111a837d5fd16e1fed54023ff0f0ef5837af681c72d5cd6347faaf9c744de08b88393ddc20c0371d94f3dfbc2f9eeacc5a512aba5092c97ef9dd90c6466072 0xa2871d6d1c85be0d44a7584bb3f99ec9d0e3b7a6e93247c315cc6a81afa4954c61cad7e9a0693f4e6706c5084bc9ba82584e7229b6ea13b39453956abc1ba221a9 0x0 0x13815ee2a0830f5eb4e6a3b2277b6f193e658b6f169d41012dd4792eec101250aa1bdc0abb821dd742597be579c1108c7c8731807186fb89918761d3ef5174d6927 0x0 0x27cc5d15020d679e0c708f94973060acf15f3235a664ebf5d9a723709d497e1fcdd1d112cf34a8f622a369562faf5dcea6a03c080ce09490c878a1ed8e6f178c96 0x8538765bd631770a31b3b9c994d1a07dbe8178101370b65f1a8e1a2f6d4b83e9d290850ca2a119bd2b28ecca237433999da27ab754f842644845b322834a4b297 0x14b9e3ded56679d27bf72a46ea468f2b0afd2b2eff8daf48d737cc024744d788dbbaebeb60256d8598b59a90e9d473437e38ca1612ead826a52225ff188e66e467;
Dbl 0xd3a2949e530ef60ed905c632750f04ad4dafd5f26fd39b2e63bad09727372d2b95a9cd7a898ed77e32d884770a92d6252261320b33854631f275053df44f820d0f 0x335e041e0cc14ffd52c04fb98d9b7a0c3fa678275859a4a4cab32805fb2f2f097aa30c3bc1073fd6d2d1f61210df8e3407bb89cd973a6b59f342179bb11edc106f 0x141e223b37fcd5a2707183836d20a35196b2e395759345bdf0d808b9493c74fcbcf27d09a85055e8da59c3c00dfd1289a0a84f7fbfeac8cb0dd857c0693fc064491 0x128b65aa595edecca84a0d1e89c456e72186aeba4614d63601ec029167698adf27ff127e4cea145a814bd20fe670abfba469c64c38bd0a3ce2cd9eeb6b99fb4f475 0x0 (-0x222b9c3f8e537c4cb3715b75ce78c9fdc68b9924e71490ce8024e3558a0fc02a8501f96533b28aceb719318afaf77d41aed00b4d2733d4b318dfc7290bfc2b3202f) 0x577ab41eb5c99d3fe93ae4db05fbf5b9b425282287b67cf7e223f454f37934cbfbcf2d25b157c9d6dd8ae474d359bcd01de743621fb03ee9c79ebaafce16179356 0x7aa55e2e624a0f13f73eb13cbcfb1d39c069c9b4a67b4eda158f011639637bdd36a3b028a5bab5d83edcce32419caaf74b659a04e2143ee08277a3f04ff7de6128;
Dbl 0x141d671ddf0a67e177225ce0a0c1e418ca7eca7aa7838313c3781fea61c4238b11a4ace88b678b331e08d4d229d8a11ddc17c2fd2512246ba4b08c0e978a1cb2a72 0xf4069d7f34620f10d204bd1eb011730c126bef142227f5e71ad3225ee5b27f201cf626986b75fe2bdd25810e6191be4f47878c9e98da45ef33e286a65b8c64f533 0x7751188ae2b1635a5abe2e77dd4707ac34e1622e26293152e0c3476a1c12de2d1310c2941efd8e0e07714db6accf60022401bd4cd0f6ba29db45d4b8d838079898 0x13f57669ed85f40ec80bb929add8a07002d3a89133631aebdafe005a7157cafe95dace5a3559141aaf5ac7503af4dcfe4c033fd2efe60256abf5f90f55592771b3b 0x1 0x185344cb94d0ab6156c0a6844d5e6c8f5b9dce8eab89563817f4d2e7c9b77cf4909a291d1f052029e9cc10ec8f3104ee21c59fb6f15221f4dc3551e24ef27778b3c 0xca4dbe98939ac6b6fc3a52eeed72607077535118c3ef20614888e9e3bd5dff6387573b88dc20607c2014ee10d31304dbb917052b81360fe98bb3b9623e0e477b4d 0xc8bc0c63b284d26bb14e2b2f1eee8d91a7e4a0eca8ce04cb3264df62bcabe482d788c495cc8696194a75db2253248c5c1d096f7f8b8b6facb2c4adf20ebdc30ee3;
Dbl 0x1def01307ac1507866f4f610bf1208e940a1b97cf2b4b72d480d60196bd73a95a1d2170eda0fd6e109529420fb2cbc306b7a32802b700fe454a67742481051671f5 0xdb3065908736f517837788df1a18e53176da97ebf0b5dcec0ee87426817c2b0b76133acbd658b589ea6725986f7e9ecd13f2098f774e4f8af2ab6dc67f98a0631 0xdc8e0cf8ac3f6364d1bb343023e0aacf9eab57cc05bf04d561d5691af505b18630cf3a98db01669326f226e0573547cddcc4d31b9f757d1d8018b69ad33ee33317 0xe65397262bee9fbf59cd4490be6fe4b8fafe4595631c981859e49b1c7d9abc6f6594f2ebae1072d33e7f0eb4da99d46276486c05a16560f684b7cfc9f392daef02 0x0 (-0x7db199e07057f813ac5f7ab076c6bc782cc846520ca0b621693a44d01b929c9f3114862dbd68fc9f0a978a44780bbbf4b96be3a9e2413d2116879006ff55484a78) 0x1c002b41a2b35a9a70fd6e27aa7b92a059b85a0d16e96978ebd181dc22ecab15bab867a9a26fbfce279a09240a49ee946920f23abf310a3acf412f685c9b77dbc1e 0xd77409db0a92653c9f90e48c047616656434498c1f2e93517df64f6c2d62437e466094f0dbe3109c3be44346f1a8bfa2948160ca4dde5ba411bae6ec3fb3b82cc5;
Dbl 0x15288336fbffe66be475a8aeb3ccc3829102c2851ebae26fcada0357ad138fd4137ad09f5406380ef65fc33b7c829145272654cd08cab5cf427730a8583306314b4 0x1b1541fd64046f52a945154cf432ac9a6236e2d4f41766fd51af071dccde7efab5052ef7b7956d305d78c70f699e75266e086bce928c7e3ac9777d38a8d8fae941e 0x16bd0121ec310d4366434b17c55061487c8e13a4296a61c0ef81a3b7b526fb01509820b260bb6178441dcb98f3318468052594c1ae06217fccb85818b59eeb2a5ec 0x5c5ee682c82c7a26e3e623beae76c4acf3ff7c2f7d94edf9a5fe15659a2fd305670e4431440eb852c71a0162ed109785f0b863afcead014c17b2e351da69db7212 0x1 0x1228f632569d4c509d0387ea7fe12eba3f077c54b3359427593a4b17e93af530c6af18801d8d036fbf296ecbdee82205c42cb1c5c429195a3b73e82385be9a98fc8 0xdfd5f824e406be718510b54c59d2786083289e9977e138817d98263139bf05e93447d413705160b7cddcfaa6d79214699d3bc29ac0294bcf44f521bd08fdde01f0 0x3d1338a92e0ed55a5327ce9d2154d9a28ba2222cbefe1f80595e42065481ba64c7c53d3f9d66fe07785241a99804ec8b07bc90ac1bf8765714c06ab9df1d6a3c5b;
Dbl 0x15514f0f9c5b5db0e88c7e36ea2c927161846165b25d5d4845a20d8a6c33106ba0a856a39da38d62c8d4b8ec51a7898ebe956f1317ff4b1514123169dc4aef7dca0 0x5a744f9a84ee4ec7ce730a9cf3cf77dd3a5aab2fe814c7b4085f3f5e98ed3c7005ba96dc9b5de2a278dfc7ed3a8772f9d9b610b8a5a6653dbadcc80e4bd8ad9cbf 0x192eb2effb6404e0c1e742377eeb54bda374f3f7365211216bb153e73006af24911c1cdf0d6233c2577ed29479ce38b2a46f9bb8d65188d94516b61f936b43a8451 0x156dfd03bbb58a662c5de4a324f5b51c8e913821f5961a8211291327e34fab33b4a98589eddf8f0635eaca9095f5fdf6d06d0ac3083217e6edc9b0b7c41b700f75f 0x0 (-0x267829c29196b080ac8901fb8a2f906e68da6e7fd236fa8e333009888505494c82aa7a3fb116994e68da1321b9ed18a32bf4cf01427a8734f7ecacfbd9cd274ec77) 0xe33865d7f949523310ed551881600ec4f5e173f88ee53706090c2a982d1a2eee10f65ac12a51f21c97fdb50d267e64b68524442f2a26909f03b9332e81fd2760fb 0xe46a164e18778796033c639ed1bf78a46f2fcca0f895d56a86ebb6f3dcba300067bcc318cd907671ff1e1f41e351f84b64d022a211384221e2a986806c2f13eadd;
Dbl 0x176c7fa1a98926dbf922b2c3ac5d32fe615c8e87f4d97582ee73554d8a7479822d809159f4f38d1f866f1fa697e22b5f1d8f0de70a2ff90ad032c6f42bd132ecad7 0xcb111294beb0a3d240373cfe2260ae217771e08a5a11bf69bd617b3e8555969276b911ac7bb38a87b362cdb25445d1dc8dadcb9b030360660f32439ce40964c3a7 0x46f5c45840b478cc01f6f6a530ced8f7818c434933b7f7c03de00ae8387fea56fd4c8aa8cb352e32ca3faac5a07e620705177a89fe32d41f50ed436ff540078b95 0x18f633d05c63daaf58e3bcd9ed16ec9bbc2e8caa58e03084a4afdc4201397a5dd8f0185301faa581ac57cfa3ae641a11d4c08451da2a304d7abaa847167cf48d917 0x1 0x21ded59e5519212b93759307907481bff0d25225aba35f6933a29c44669d252bbbdd660792c78337f9275b52d435e7a6e8bb818401b77487aed0af8f7e7f827ef72 0x11256757e3fbe8089daf9076aadd78a18eca7e14f0865914868e02cd6ae90b84d844666083b8cab5f5cc5ae607ba5b2dfa8c0e1dbce2b16c8a3a843615c4ac3fc94 0x124597bbda36732f6ac79dacbbb1cbf167637fad60b88bf1a530259700a63f283a07e3ebc555ac40f46886c213578ed38d80275f49a567bac72a72b663eaba59795;
Sub 0x4b304a3204bc83180d812ef48c7762203e0b158f25079977312a7c3cf3c85d750ea330d4d52bbaa8524a821c54b16732629b1266ee9ac2810877028d45ee174bd1 0x99d35f44fd9c3b00873806d72f823e7aa3f045b33d5be927e84d3b94b449ce70fd53523f1710e6b403715420aebdb6673dba0c34fbb24b0d271b35e8fcf58d6b4e 0x1e1b7fe9dc09144ed60b13e7297ab90b37bd925c5ce36e53c46206431c1d6a648435779b31d059287aa00f4b84e8af817053e2ed051966b0363e8a1633400bcb5ff 0x313db34fc11468d1b8ff3626f2de6fa6d3819ad71cb5d641d5143fa9d10bc8217965bf6d64a2a3d3aff17991a5881b754ff3bf6607511558e8170db3e713d75859 0x0 0x48b848e07ac9ee87298fe32bc3d186d34d57c09210c7fb49b69528f24ea4954bc17c64e03c3a32e8a64aff12ca2d233af7a82e7417df6237338c51eb2467f0641 0x0 0xaadda7d743bdde56b0ad85f7a1e84afe0db4e1813026f54ff2a8eb04ca63c1ec98ad57d5e4380fb5c51b33ed4331a5935aa869658c3bcfcfa356d07a1d78cbd5 0xb0aaa4a9b8498020b392709353fec24772f1d9db8ce6f7b3fb9384309c7033b43d6cf35bd13eab7d2a41fbdd9606129c01db36eedfc0cda88ea3198516fd5cbba 0x73b2eafb8a83da06ac42224e639e6e0e82819e8b9b0ea1cb1d4e606198f668ca2bfee8df5b203bc95df7efece37d83e43ca6d32b95efc1e3efd656f3949140deb;
Dbl 0x18b4a4e81b282f037359be8b24ba4c88802ac26554bc1249585b99696b983fa0d573c473e973966a1cb6188936a6fbc7b40037ce3c678da146cf39d6e7513b98893 0x373dadeea49b657c19c0f0274b051f58a193829213048e374c0b5dc74e0effcbdd8aa8d7b6d3b3f85a86536dcaa50b283d876d471b146563476f36f50323db1ec0 0x1aa05a74b90aa0754ba5baee2d000444eb5444600b38bde391bf89d77fefe222b8be34ea4b1d79ccdbf669037bd5cb99fcff9b22faf401c90461d230c9091c023ec 0x6295b1565900d5846d7716afe47d1f22025cc3212a575af09c41ddcd663acea51fc8a967603d32bba8eb00b2e418ab3f00329eede09de5a9dfabfef3f9d1b24c8e 0x0 0x25d2d372d2570e0ad8554af10e7b41a7e568b3a38c2a7575252c13e8b1ac99c44419eafcafce44267e4cf98daa3b27c125f5dc793f77f7899bcc2861bddc80cf06f 0x1312f31eadbf747bd371619c6b2bb1d1e7df8fb3e57aa9a119752e6e545236818d2a5f0aab2d20d637c62827c652faec416c01a75477e080c3694da8be28fa370f3 0x4c1ccb10863f9892ec3998acb054bd21a43c3b9dbcaa65efa87b61e417176cedc8c4efd34941fac0823acd1e228ea0a0876d98fa2bbc44e74dc630d97c93d17461;
Dbl 0x1353e6c24df138a8c813c466106661cbffc0408fcf8d56498f46b4c5926e902e8a564afd37e8a66159fa01faa78d53119d68e70e62f36391aaa27d7333e88f65789 0x1aa43c5cf3f85994aaac6fa0653e704cc210738d1eadc11c6800715dcd4e3de5abbf3d52bb8765632e51591d272b0153b763785ff4670a1ceb5e547209c4edb12b6 0x106ee66bb602e3531f103e26ca9e848a2f1473f1065dd336f5c1357663e7e1c39dfb40709f0e01b53b3c39bee2479736db52ac6d42f3a7fcebe5817cf0a9fad8fda 0x8cf9e81f6515cc316ef9f620f71e1a8c808c49c028287c70cc0447ea792b21712196d3abfe5d5dc57570c19b57f4f5ecc74fe747d4a3c3949189efd466d5000c09 0x1 0x1f0bf5cdf2192ac7eef333050deae57955f5e597e76559cb11126a916fec6ea5b3af7bbc03386ba73fd575d1c4c4bcd62c43ae33d40b215220e118033d5fef3d565 0xbac7e024c9082dbb2469564314e29ec7b5790ed600bbd02f5ab7fae1b0ba4fbd5f5c9b49f29b7fe63620bd231f31a89887e8b54929b66f6905361d6438ad56e8e5 0x552602a0ec4410ed193dd16b58c826359967f2493abc2c9f0ce03adb6966398b0417f8978461ec5834ad3e3df799dd95f4e05475ed06dab7c453c2d491d7aa33f5;
Dbl 0x1cdea73be45988f26d24f91bc66cca371df05ffe5ddb8650bd6fd55dd9657a5a60e674af9f39be72940d179c16504bc20d24d80e48b1754795596f10453f8c2edc2 0x36c3807be24aa466cf60d6bf88603b41a16c2b96c7e0cb17d2566aaa4a7187b246c02e820728009f88ad1ef93c21ac8ba3d0008a1af8ed251e7bef4a1b354dc149 0xa9beb3851f64bf72296aa67847bfbf1810ee30871c8e1556f996a8f75ccd5ae1a616b1bc7d81bc76a76a2e771f6bd3c04507dbad1c1584a2796d4f95991b49042d 0x1738045535d3af4e3db662346cb86c98a7f9b0d3b22fb46aeadb0ab328a7256a87533a6a9b14e55935c6872d9368e68afd26785752b77b4a9976957d681198d516d 0x0 (-0x24e3c54a07c1044e6f9fa351242341fba27cf77bf3e3e75690c0d90c6fbb3f6bc68be5cb2518420af807128bb669115830a396613ca6cc22e5263a83ed1ff895e3f) 0x1a0bb1dc989699734fb34017fee9cc955fe2e81dc8e22e282c1e1e3df839b171257c0639b82422ca59e9c94824215cdc1c914eaec6ff2fbf2c1efab0e72bc2b1fb1 0x14f291c069d36a01c3b5c307aefd840e24cff739e28b42a4491de6767d1f7681a33bcd20c94a7f32a128ef7a5248addb70f93ac23683fccd963fcf6f3d63ce2f66d;
Sub 0x1aa1e6e6aedd85b59293b994beb0c60d37a4b5697ebaef536b03fdef838f5f70497ea03df305199743bf3e7c841ff585b70008bbd98489158072433f864eb09cfdf 0xb207304877f3aefb1033bcd85724406469ec54dc1cb0fd04bc03b308388520de2fb79d49ee6c9a0ceea54d11caa79cc893bd2763b32e67ad1472c5c97b49bac7fc 0x1adf747bb44ec0ea6e01605cab9bd1ebf2f4f7a68baf9eef34b06979cfa90bd878da4976f9f19855aab805372b1f908f0aa90fd3468ac74b3cdd63ce75b5e67b19e 0x184bc50336a56f56bbf2d19e7313bfadd377fd6baab2fce131652b7a211ec66d41708913818bb66929a07d1e7717a0fc31012d92667ca85780a0929809feb92f94c 0x1 0x1703df2752b469f7d01c297f4223ca58d5ecfc7158edb8b62b05e41faea063a748c1ee3238f3819465faf0138147eace2c59cb7d6597382e2828270cbe9726803e2 0x1 0x132796dc6e8d9f2f525a7a193dc72248d74932b03256b9ffdb0dae5dcb35199f795a9fdde2c81d49fb0a86151fb7d4e24b7b4a210632d1667f2a745d0b25e694aa0 0x162a4a58cf821efe4f4634cb5a94775659035cb8eb9cfbb8ce094c8962680874cd6d84fd80e3da1f3de3bb91a444bce30bb8a6d1d2fdd5a4f11e324178c9175e26a 0x14387c9991f4aabb586d135b6c58cd3215a882b2c97e09e55d56e827d2f2caf3740cb9995dd6f6d970eef21ec89e0b31691249933798c51877fa575ed76e5691897;
Dbl 0x6f19ba9fefc80a269ba7cc71f35028a1732adbe578e2fef39852f1aa1318a7585f10cb5f047a1f0bd98a424d2a5bb9d7355cc04d4934f7b0405067849bf40820bc 0xaaa686e1b41006ed1604905d73ad2884fcc57e0771554e13359236b7739c167d22ddf32227b76a63974417075654c72345805ef3ea74f69a8b2a0f131964022292 0x12cd93207cab986c6722046266037eb0ab0a5a42a08bbf098ea2713d4a3bceed5d431d419c66053bd88068a8e1925ca55e1284031a26cbc6c0831366e844c932d02 0x760a966c3e3a80dfa2f2c7ae37717df6d26d6d4ab5baef186717c50c4e90a610cd9aa27c6b52fa95761360a7452d5a54e3cc86fc8b971128948b6b661e5b8a56a 0x0 0xe46fadcfc880c3d092b7c2d0ef05f3e8680057361bef775bba4dfee0064d43c82d41b6c0646aff96dd666b7c7bc2942b4056deb0994b4028f0f79b45eca8e01d 0x181ba936569c8d1cf02cdfbcf11211f44867673c8aa40473cf957340f63157182e5f901d38cd4f82b1786436db21ae54c6ccec28daa336710a6c19a3bf8788287a 0x199d3a2787fdd1b5bfac242d2340dd9d79a4d740f40ead4ed383b030d0b9857ebd18494f0993ce5670b3bca899d405fb66efb2ebea33dab2dceb92ea7af6424c8;
Dbl 0x1dbd6a1494d4a9bf9d84037bce5f22db56b40ab549f4f2aaa1e493aeaf9c52b0ccaae85832fba5f83cb0e01f2bcb69dc1bf3daaf1e0b8b1ed18fdd483468a29260a 0x2c4e2a2ba2e03f6c66b8450a6f372dae131e3b1605a5a88cca0ca5df1ad09e7c48b45a1a4c30141851d0b82546976bca0cacd3d0e5aa2d465dc43bb36080d8a63b 0x33230d10b24def2267c640da4f7027f90df894437cc7f1a27c3ead37dc08cb2924bd10c2237ccc03a6d56999e27fc40b73fcbe00edca6a8d58cbda037620699db6 0x7e585cb6112fc780af4c4b530475fad6e9a742f16bafa5866b8590d858cb7800da299907db87564b45735ee20fbd5b5938d38b2304cac9542d65d35fb8e3297c57 0x0 0x18490d7bc928314ca4f0abbb4f300b11ef1eadf01ae50b54dac7acd2e931b6a062e91f34a544f5cff948855003e1738a33af90df29f7da428dbd75280cb9d5935a1 0x1ba3b173c087eafe1792384228fb657eab5c6e3efe6c4137dc89d9903b84ffe2b1934e086a2d5bc9ab22f42962e3c54ce5225eb2ab864e567675dca6c7b4c01f2fb 0x756bf0be88de2e1f6e43f5cf0027249e237ab3e9fc5dc02b26caa1862292fb15550693912b4e2dcc1543e313562fdd7e5e9041ecad411697d85883ff9394fa0552;
Dbl 0x88797a69a5acb24b5187f00da4fdd0830f1b5a7f939dccd96b51faf5359be5c859a27698e40cbbdebb65739365c28a55f0b5c9c6124dd699dcf05a764e4e29f90e 0x637e14ef08689743b2ed77547814b53e03afee1e1f7cd9a2e6df6764f9f820716825600c0c22a40e8d5f557fb7dffb7c323f9834867c33fd608bde301222ee7872 0x1c1321c5f565050e218f233b7b4ed8c97ff7619b2ecd0ae0c68b6c2aa8f1a88e6ed73b2e59b14d4a17de32d0ab429dc979a72a503275f07c401d8c1c320e386597e 0x1c8d0153c9a77a828b3cacdb5f72278700f6e4cf7e628cee9e32d3e7a20d87e0ae08efa0e400d7009c47162a58eb7704dda6d3b9c5f2df948fd385d834e5dea2dc8 0x1 0xfc2716ac4060e481d64786263131cdc19dd641110bb73d5523249923f22b3b34a64fdc4c074d55ea04d9c5baf7c7653e3115584557a1808a3b918d6ab61dc68e0 0x2460a5da99377c193f52cfb1837f97c9d8ac90a603269f8f035a2fbd10d91fc24ddebd1a6304b207f8514fef1a25fad5a5c59c8c8c4505cd8c4b734fa4e3d78824 0x79c3a808f5673980f2bae1a16138dbfe60276c0d764785afc280e866566c8720612de01d2c950f27b37d2f576fe7981891bad099d255aef2688bd8d790d591ee44;
Sub 0x16011430e682bc0c2e2d5b7fb48a4f9ade6d700c3fb7867dee0a81f2745d3589acec1773b5eef319c44615c1477fc52d5937d0497be9afc90e036b3876f280d8315 0x1edb4a0a9c4a0b706280b44b1e37bf24eef60ec05e618f4d4896639bc356c21b0a4affbeab27b710f8d07aed292ac1726587e4864f57d7bad7f774a6efc8cbe7c0a 0xd968d653b6d239971cc09e1486ac5aee42f849eb82f043abd76458aa0ea55aaa7f363683685de498dc2d6636715fc94df883f941eca6bd62b7fb5f5e2c9ee930ef 0x75c9744543c7e03d8ae232a29498c2ef144f02183963e4ce5d792da8c48bfec0c375642159a732ff0057a6ad2533e455d9c14fcf90feb84fe11493c115962ffc67 0x1 0x19cf886e851649259e54f388911f11f89c113899ce67799edc4e73eb5998cd333ad8414ad9432bcb5646137be903cfbd3540c4f80c4f6c9bac4925fb1e06008bb0b 0x1 0x11bf8c9165724b536754ced86094ace5c68c61f8365f7059f5a6619641810dccfa58fd7d8f38dd2e45d31ce3bbac0c416248236ec550562f076f71dca9af35ac6e8 0xf217bcc8cbf9599effe0433d67dedef7697b41f076550aa1831469fe3b51baeada84e2db3b30f90d2ae350bc314fe7804ed48e8d234ca6c607cf0d115d4f523229 0x50fe788d281664f27a89b82214563c4bb3999233050abf89c175a0e8d285ecc488fa6dc694d46b737a74acc81b749f9a85eb568ba05c1d4294b7b65d24b91c20fa;
Dbl 0xf183e2f3c7a4f8951353bffee2ebd08cc08f89edca05f32071b01355a78e1c8d5d3493d70efa7a34776d77003c4bd84fc30af198b0ea02bbc24bf69038876b03a7 0x526fb0548bb88cc4f50cd5c46402dfefed57ab48d4d874c9e5b6280c75db4bd7e91683538829f9b7ce710c96c749374dfdef85502f0e3918c3acf328191445932d 0x1a993c3a672c05813de1fb17642b579997cbad253330dee47bff471986e492e5f9867360ca2b8c8859be8cca11e2664069612b334334445ff6c3aac90cbb60ad3e9 0x19b44f05538e82a4132fe6eed7f79125f020940bd1140800aa3b011afbf90d5d8bb9978972a517757be96a23bcb62dfd85a8ec314c66f4294bbca5746e37878e8dd 0x0 (-0x4c71618383b1dd66c60bdeb36c711fa7a9cf71eda4a18ade701a573d5da86fae4b81243e61513a5e694f112344e732d5caffd2eed888fd76ff5a39de7c5e45860a9) 0x71eccaa0864b21c17e5f3e8f1543734cd16800366b7fbdc0d984aa32417c55fbc763a47656bc61fb207b3a85146562d802b0cb72a27bd05603d204826bfe1b3450 0xc1ffe390dac2d506bb7028bca7c865dae3075225c1e01881269b29b5d8274884df1fa47ed188084dc0ff5290a189f4400015572476cd5802febadfa87d73fa85ad;
Dbl 0x1faf5441c19064fa88175dfeab7f552494303723fc85dcce2c47bae77b729b77090b9beed3f11ab80de1deb66570a3a4c95bf71c1f11fc6990cfdbc1d8f002afbe6 0x18f768da34f54d4fdbe4e39891c2b3720a9c47d6d025eb8ecc76b74add74b8abcf7382a4a52fbe72132a0b323d5de8d3a03ddf8268b8303a3957f3c0aaaa6b9478d 0x698e6b6c34ed1a4f62d533e962584be7a07e6d8acbc17c14f7be63c5c4a2fd79de20d11bcd5645c2b7c15a63965aa9176ec705d8b97864aa810d845638256c8ea 0xc2f922b13c63b7c736be9c3b47d7a8cf43932ddbd279bbdd1e4ab35e9e8fc11af1de5909352e12969bd05972f16aaa13fa118d29a38b35752e2db71d6e6d8c4b9f 0x1 0x322f42fd2606be876c718011de259970f3838ec442991e11038216b48d840890eb2ccb1cd71e21ed400b5a820997fe654e2bd273d0fc2c5e802ccaa59353928750c 0x1f5f73e1d4169e4adb739791212980bff78ea0e7da959305db5e962f49bcaaf818042924696132c30882684eafd80dde6d70b83f81acac6609b563accb12fef9b43 0xc10d9d700c40f38089378bd5365ddb5540746906f059a7ec07369232a172207a8c790868748033cd62bf90e4c5c26ae7b4db4f960465929c6a1953e5bad61ac6f9;
Dbl 0x9be4dd245d0840d0e4c03c987060eb44a2548598671a1cb08035bc2aa37f35ffc9543accb2aebdd5d67ed63f0c2561817ee64955cb99a80d4a2017bf6c8b57be73 0x13e14cdd8001890a7ab0031bd99e19a9ab2219729394c5b94fdf66983cfe87e09a3249cb6bf7ca53a41493f3464bd7b800ef2e8aab37224de826d15c47c864deb35 0x8093d783f56c6fcd1af5ec42e980ae0129b5a25edb750fc5c1d876fb1397a132f5e384b2c64cc6f23f0f55e46d3523c6710fc608369c54b238f672bb598805d9e1 0x5161bfcb4f3c4456134e07cb82499c85f7a2e643c9125d57c9750b2a07630cb354138d93937f41e6f15773ef712111b9f4eb0f7bd810dec5131226462e206b5c58 0x0 (-0x3a2f7ad0dd936a9dc030da388cfdf4963b2b302e23c6e1bbd7ddb307dd61153c8c295bf097b72365c31f8a8976b97ba2c7ca06ba8d39c511ba22889050489e34f44) 0x2f777832583ac17d7a91126e54fc6da72746a48c1da4968922f4c193eeeee2c67b3f0433275ab599214c12a9e063b8a940336b27a27bb03ddda6d327e5f1e792a6 0x18c7783dedf856b06c05c70ab02dcb14a0ecfcb9dbbf0c6b439ed1ac7e19f1d4015831832098ed8cf12d7732205318becd84976a42a800d6747fa35134a1b0d743;
Add 0x1501b94f84320780f54e4d03b74b97e3f88ff478767732a05160dbe3ea789128b2b34af4a95e94f172981ac029b6d584487657ba143fb5bee3766786c8304cdbbbb 0x16ed00f42c2dc67c5f16091b161495e23a469e6d5059c34b94c14d5c9a269e519a01e05f16487de71d206cacd51f9919decb8d0cbe9fd0e9e4dfa3359e3e77e68c6 0x1dc06356c6829db456909582d879cd0f2fbbb50ef06465562a24d10715be125b17a7055a430bd59afbf8a4c18cdd78c3b8f30e08d4485b2ba2a2aebe6e22d20afe5 0x1cf44be953d3c28e1b99fa00c38983c770db7b05433b026dbb1e193ba2d7e98f0030696c55af4c6c86f42746712c3e9e2223a17dec97516403472e26a989ecf826e 0x1 0x778f3fd149148bbddd61f2f233be04e66f8532a800471bdfdbfe40d46f7d30cbe8835158478cbde1184b21733d1a7bd730bf9ff6f1ecba9be67397464ac3682dcf 0x0 0x4e7c72b8970112a055c322462bf76cf401053a7918d7f476e004f0fdf565eeb0941eeb4c2a85b059644a95201866a98dd9a2fc29b783d2e3b52444517826e1c85c 0xdca4350239a1b1309eb472d9a6ce8db2654439910e7fe9387a4d8dd50142b34fa06abb274876d7b65e8957b3030f90d64176676bbfe18e1f7ddc6c9ffc258956c8 0x1301e11fc7e2e895bc3832b1194132dd900fbeb5c5f2500be991bec91b7e0292501087958a0516646e6e1331da97621be68b0988431c77d55364ca4b83ef535e96c;
Dbl 0x1598611004f77f3d415652439adace181ab90f9fc523540ffbfad678a5f4e57d51138292712ab4f1fcc2ae83ac21bccc56db6e217c5c63a0d480d37bbbfb691a834 0x5dff3fa125cef8527061f09636fc7b5019de98ce80c021a1970684fe9ccc4628b26dbd22706aba8fa59904959a621776a5b0f92ddf517cdda5f219e5ccc57dc553 0x1ebe60699fb2fc02bfc96bd96f268bc6513ca7243b2a7b855fd46fb5816c5517f73a2a1c0a1b64e8b17ca947fd20e567c0eda73c2773046303a72d26cad0225f405 0x110d0cfa19d0d6f7380fea11b2a4ce2d38a8b4e0684dc1317b50e50cb059d9ef0edb048cef41d23e22c6dc637b7977a274707d79e0aab91c0a8081974172200a373 0x0 (-0x91e5b63d7f6d8c9a9f588db2d107fdb6d8c39094b8e2140f0c6fd45bc547a2568963061b2a49a88f383f417e06ffe467184f857fe8b63e6b3dfba2b6063431999f) 0xe92d500451d2c5a9755f368726f50948a2817fb2d278b7544cdbc34d65b0a40df82528856dc1cff6014dab3d3bba0ff8b65402b9e57869530b9ce035f2ab0e4c4f 0xb81c239dd6dca852400ce1448ee133ad39867d4746d61dcc24b59bfa4e1aacba4179d842745afdf7bad09ad40c4ec1355c6984c2834dfb2b1e4688e62e85bef88e;
Dbl 0x1bd7582961b24224c53e48cbc1a807e1aeade8c89ac64227aa2ba74466a806f04325ba052405544b186741b33427ddb2ca8b4887b48046a2b3e9a2331a257dc2db6 0x7fc1e1668a5829619a67c904c582818c125ba00321e1b73377fd346abb829523b2882fe435545ed1b2c53e4e247df417f1d00c2a7fd99aaa816b6881147975c88 0x7f27b238261a7daa7d04e5eec7590fb624815a8ea65287a49651f9aeea83ad87edb99cb73289be9bbeaf556f44a685681c3f61c5e7e6eb442e0a04666b44d2d835 0x5603218abd2975bc56bb7405eaa4533758b8dece4ea2062e5f86b1b7f1141cd677453a242d1574a28a6cb0b0b81a38352693f86b3753e332fddb635dbb7de668cb 0x0 0x3242b786d8dcef1688737bded954199e5b43f825b1a478d40487812284cd65c4c43b68e5f20d592670fc6a3605c7992c227c03afd8e0914a60bdb13c720e71bd19c 0x18390def73d169cec9cbdcd95654c891c256ecb6e299c062323319c59bc7eadd3663fd4d139949a895468cb73b6c077e429f815ef8ea221a402e8d568e2859969ca 0x4ad5764e429b0cbabf7a2321162cdb16db5b76eea415982064ae85fe6dfa22aea3de28b53db340168d8b4aefe0a63ec688f4b2b86a3656c6ab90308f96394a9ce8;
Dbl 0x1d5134d7dc82b30a8f6e0d897abb7cbccfd9df36437598fcdd0eb9c3d98c9bb35932853d79e1eae9c553b00e4bad599c76827ea57c25ee82af78567e4fb06f9e171 0x1aad6a3385f486e8ed2da4b1b32019a5547153df1a24e8fb03b40c5221b2bab47ada4002d7cabaaffc862f7c4b1a028f9bb14d794c8cdbfd03fb5a7dd3a6febdbb1 0x14a83279116149b4086196b9fe6f68583d2925fd7e702c041841e9cafec70240de3bb9d7d22d5513cf23b6ce9d807dbef9a558f74146c80ed27724d7dba2e012d88 0x5d257ade095d140746cc31751a568dc37a107c0e8fcf8bc2fc3f0e24908c7e0a8d8482d0c6a99aed52c95c2030a7b647c408292ddf2fd9da68610eaad6d7ab80d6 0x1 0xe89dad07cc523bec0a9a1d65e00b32185b2ad31497e23bf52b153885ff3e32d1f537d54a9c1cb3db519aa46962940442b785b1ff3b0b9af36aa2672cbeb85c0ff3 0x1adbfddb1bbc76f75b1cf95e8cfa9debf50bad2b229eb5eeb536973b2f385a5e49020f84c3582385c7e5175fdfcf15dd4a429111d94d7e9ad9b4864e74d5ec0c0e0 0x5556580977dc7ee97f64d883c2b717668d279a9ace67fd8f5de13e6ea0d10eada47654421efbea86fcac3cf8f061b4a73a0b458761b5ee298b54abf31b2fbe1147;
Dbl 0x10b8cdddeddd7f15907e745a71c408fa07f31cd2773d35473ac1effeea97c7a3d5dff702d0bae856f5b1e975fae744265ff8f6552cd04d4b96e685103cab3772442 0x52f21a4afd06ba7f80cdae28a459415050de53f0e8051a4dbf57b349a7c1e4556bd88ce251ee3bd2be7f7a3e2d24faa9c7c821a0a370bb97713a0dbaa5664961d 0x2d984f5b2db17938b2635ce402acc0cb6cd49f807429b58d92c4677ba4cd1430993d66eede1bbe98ed9ef2cee755b2be4982837e711f756829489ad0da75533b7a 0x1a5a78193af7802e6dacd7038a7bc0640420758b293ce3e0b5f4b49ed80af8d0256e6775f578cc7429c7b0020cecdd94f1e98557abe96b416c8a207019019874594 0x0 (-0x2d219e8527075a63952b322e93aa4f7eeef055fe2d6b33e7527947f1687589cb562b0fcb8ec9af078eea2e4807dc2c66f3af0b6b2abc788d1a2c7980e46dd5ec900) 0x8bcf92292766d15604aaf59462e71db1e73dd5775ef692aa7e33e94e1db2694737183d84119dda4e3ffa650776839499c70921cd25304c0daf6c7dfdd02fbdac7b 0xdc56dc984a2522a263e3a4dbcf7c8ec7067a7c8897cc6b90ab43615be08e7778aa44167dab18a187e0c388e6364c27a9475d42e67ede4b39ca9eaa8d8734dfa8da;
Sub 0xdf8515e2d0f6a95390a98431d348c4fa36bbfea768f92e6961ab0f9c2d4041691a9de4d17396d66465007b2185ad7353004dbb4b12f6befcb69bc6f93888176db7 0x2ba0c9effe2aa7d2bb1ddfafd05ae8b735d0cf69c14d03e5f7362b2a30fd727da70c1e929cc7f524358807887c8f084dc8211c5dc9987b6ff27d218136ed9a634f 0x13cc632975cf4290690a3b34f56f105f1cc221c70e7a05cac89015b1145c9f8365ec2cb5a2c8bdf9b9d23dde9c8c7276c8e2769e40c678aa22d1503ae38ab8140a 0x1d98e57b4b1a5c3d53ceefb32b9eaab5dcf3d15d54d334dbee4bf500a697eabc7afb16a3b8856ee98f65ff01b6643475cd45b65bc409e904984967f5a7368ca32cd 0x1 0x13ea9939df8cc66be2a6e9c172421fe60c27180bdd57b11efb9fd52853a10d1079c1c3d6fad2efc6402e9d9e2bb2f5001be49396648b1a176db1a225d78937ed8b6 0x1 0x8b1db07745dcb41cce0b32d83288ed9d4363f39ac470c417994c256fcac31239228ec05e9dc492200559aac8ff93d8cf196909ef1a0ebb7a5e997f2bfc7ad839b1 0x619490a873cced44ce5c094586446926c5b918f7ecaea6bc2f7de667c8057260bfa331e5b3c0a59a29a20dbc1046683a1366254576391f3b7ed325f64bb0fd5e01 0xcebc96eb1b837008c7f1fba9d46ca9e6b0ffc86a6331b596706576d5338de91d2e477fba5a4b956dde919f76f940d248179189f5d1362b75e2da21e8a08774b5f9;
Dbl 0x91a81d878690229c119fb483c8deebbd88fdc312e86d9c31ecd24c55ad3005aaef46986f8b37b6b48e1141089e8ed09e150fc896b801418ea72fdd800bd2e9107 0x2fe2a7146784a84b6079c3d916622a11b3eaa3e19ee9642a572963d1ef032170996d739f20d8b76e738175a7b58cf1514eb7677bde0c3b2daf68126ba721a92631 0x1657a56b0560695ce22584f6c54018de941dc8c6e01a34a263b0607018062e7944660647fb34e7358480c3f6f08a03d8e96ea1467eb26f65b703ec95bca72614ae5 0x1fbbe22db96a5ff875aa41bd6b9f8bea581e62b8822639fbba00cc75841fa510d0d9eaaf37bef3db5c20691e0c70216fc7969b4e1eb8c404243150f158fcbf13d1d 0x1 (-0xa72e0f43cea6e7d90409310e1feb7d7da85ba42e517a4cc4c0eff1dd1d7b2d579a65ba73c04fa91e7c7dd29cd700a81a96552fbec1f66f8b248f14e645da5d56c) 0x296fefed25dbf04f09b28f0aa947a14db668e6112847b282eab06c4f63927b945581c4a86a1159349fcf4931bedcfb34962f4861af92f6545df5d3783630fe9e 0x9072108b4b44c52ff93c77bf019b827b7757a2869753c49d0f4c25b830ddc84ef9ee017fd972351d6c5aaf7a4bf77f5fc9315da76e2eb67f90cd855c461ad4624;
Dbl 0xe4d78225c928aa828a928819bacb4f16f0c6fe81ffe57dc2e14d709fc0aa9db262b8ba0d3c07261117af0ab1e4bd208fb70ec1bea0ac9baeefd6fcd47ab1dfae3c 0x1da156b40cedaab439fb3a4a9be852e16160b87066f14e400f29e901c97dcb8f4d1f711ed449d56099b4c2e389993cc132e9e1897c1a003f93ecabc34ef39e1eef1 0x12978cf5dfb2f2869d7c5668b81d44dcc7a0edd112a1e0b23208eadf2c899d2c0cb65c3140685871ce3260a1eccb5449f78fd9cbd90123efa4a381937bdcf5a5f0c 0x55cd3bd398a9fd07c0c61f2f57dcfbfb9ddf1cdb2fd48029648ad3b55726687bc77661b1dc3b6164d835476f1bf9253e20194ee41c6c3734709d5636b7e7c7373f 0x1 0x1321e61a95db05c5859048fee9793cbb4c529e1e150276f1683a9ad4a3983adb49a62f642a7d0d125da419754a95989ba72bcd13715f38130bd1022cce738cd58c8 0x66484a9f95f95bf3ff8c429f043f34d2623bb1a83f082a0d728c9980259e1c212986b555c9962a789119148ab0e97b33a96b2589abc805d781c76488ad82169d43 0x265982224a91bd35294a691358e7575985b256b3f8f40774653d9642bcf72d82da0bbd3549a0082c6812856f50a31d984ef4b32e0240e160c6b1549d22d89ce52d;
Add 0x92fa799325fa1cb0a22224f1f90342a7d4a6ef406cfc507c390490be5efb8dfeae28568de529a0fc03bb00f2a548a3339dd5f1675ed9ed7a3e942a2fbbd26c5e55 0x1cc6cba778c5e0101947d11a9fd7268fcd01fa0245486ed076843313e184222d7a972cd65e144c231cb319d151239236606cc14a13a0d31e6c9f5283fabbc39270e 0xe5e87a37278d4bc74eb977bc3c9f7f04b06e58b300ba74ec2dda23a3929fc1ef468ad83f34907b04d3c3717504f946539b5c7e0d19e2757c9adc631e65898dacf6 0xda8b0c9427caa420b3692ffc112c51945ebe6e21a8df6f98a5b5ede7f9a961d28844487635893d7d01a9123875aa8ad27d203f68792d21274d593f5437da8c7e3 0x0 0x1138fdd3a17d6a659d21565de58619861d36f2285360fa44bd0a6676d37716bb71755c68eccad6eb0724e107771f0cc6a506acfe4001a99b6a2d13db6bd76fc318b 0x0 0x4f1ad4c348309a3b901b70f9161a6fb8a2f79cfd392f14ba20219c7d43a0d8cb91b11c8b10cc3db27f2f5691e3ff134629a69657592b7e1048551b9c1c26f77b95 0x2a3153dec239f1da49f4e4ccdeeb7231cab39a6b578ec00a9bc48cdcaabd5bca5f4bf8daaad374d56408e6b265629349ffb7bffa105b0293c69b93f3fb8a864b2c 0x3ebc90600f4b253d208104ba3722e50507657b8c8bd1ec2d84cfd785f81da98b2ae8f9a6f46a5aa804580e7085ec26f00f556b014ac92a1783284f7991cb453a3;
Dbl 0xc1c573c0f019991ad61b9027db980bbbf98c6047bcc5f44e00fe1c39cd039239aba48d856b4d89e0984f7bffa9e893253cc3330cb71640085dd8312dafc6a4de5a 0x8e714210a23fd1d969a9af2e8addcc954f1dd6df93540c32a4283404d30dcf1e1e06612e2090126cc997706900c762859f442648dc882c0053531cd85e80146969 0x197333cab0d0751132119004fc9b04b85e29e4244f119449dfafb14c68089e1431e36e692fd7ce4631a85aaa24cf4f0657fe22b0e71257688a945039c91e243a09c 0x13dfb7866ea1e2f282ad3627b72949c678101c944c132e0d4c41afd39453453b98b6c6c37c0b4afc5019a2cac1171c0e06787ee585d8505e676a20b674d3c24bda5 0x0 (-0x42c1cca72e58cf651fe08d6bc680bf529028a15f867141e56b06e007ef0403cb64d66b194e1e8ca604b09bbd8641e6b8bbb2830ee7cf6cfe7d1b4f0a6e3a43476af) 0x4955a86a22a784b010a36e03bbc8ed98c1589ad21f2d24cb6e2536bc893cdbe431b2258783215f92f84e5ba30ff9246ac6c8b45952373919a7194242891c167fe1 0x7857ec086dcf7fdf4b000a04d96b68eb11676fb389a28119f0e501fb2356d79e1bcaf97fa8926c9481c516e11e44dab088c797b0fc72a7bc7a44c7d8a64ebd8b90;
Dbl 0x1ac3a446ac5b167227ee08783787c9aed47e5acf2d550903129939c83c47ac6406904d02eb2bf3a0ad29dbbe3af1886fb5d2922681581868c5369b486cc9d7c98c3 0x26e1a4e314693606b62f227c9660c5190bbc8f8525a248107f38b78667a717f3060f5599539794998c8a433c06390cd2c6846f375b9dbd16505dd74bb0b036fe59 0x8ddbdfce64f4c0723f1f2fb15f33cd01942ce35e57d84fbfab8b9d0159fb0705479d4d89b08ac6ecb5486a1ce2c8c30b524e696f9d80d2bf332b69f242d56f9308 0x678f9d2d8dd69bd2b37a8cb1f47d077c4361475a6db1c42224ef7c7e6b66b72b17f70b94ccf87dd33d0d2d2cfa8e55b2d8bfb71180ea6eea02f5458cadcfdd6b10 0x0 0x2324394c466ba6cd3b04dc99903c8c6b65bb3ecab18af6cdf24c4ffba8f55e5d150bf2992c2d33b36ed0ceea4a035a9cf25cf1ba1c3030875046c2ddc5efa8df988 0x1662971040bd9d566511f41401d738c95f81c7001382a5971504503a0aa745e86f7abcabaaca37480e0fc206605e8e27326714f0de226283b946c7751a22a4faca2 0x569dd67f8e52b2d2e2ab7c9498fbde14f6bb5c2d38e6b5c09421649506382f3b950aa794c716c2d5a5a658023469bbe79dbbfab4e469c34ceb3285085b3eb92674;
Dbl 0x16c5e35c16b789a19ec695a0aec5c75af67b4c7668ce2df7e2e53d4359a8fa55d101f9cb1cffcb3d9e97d699d7db920e92d578a4faad50a5134eaddb1f8181d8d8e 0x1080b0f92aaf737cd38cda69541bfadd7d33113c6cbaf251cf47581fc3d2975ba285e5847b5b272bf0aaf87d4746bdc08f7babcc503cfc4b900bf29564535b35b52 0x1b34cb5c2f52ba2c1a74356fe8bf49b7db0c7d73aa7d5f641aa9645407fc522f006fd14a7b1f816788481eb3d0c7a099141b567e4dc55d515ece67e2e23122a6886 0x11ed695506971fe397d617be754a11741388b7bbe59f322f38ac3358a2a7da238ddb0fd519de521da81dabb6791cd30c9cec9b27257cdf85d4f9eadf56b7a83a306 0x1 0xc10d30fd57d8ff2c402415c3f943758b2e5a0651163e7cf39f805db7bf8ff6b31438b8a8fa280208c5655de5b9d17c54d6d5366c398f1460a80d7106257f3443f0 0x1034e05c4c779c5b7060d2b04e37fda001d762c14632714e801b99b3b307d2b5daf8c13ea1f3f7f34bc768263f83586111a123929e2e268dc5be265c09295af9d40 0xcc2155aa2747eb38f5b20ce61f5e1b4ef8d9c215e24156d9c288b827b64e0b02719bdfea0867680f8172797e4b550cc4b5e5a035bbc211c6267129804b6a1d403a;
Add 0x10550c11da2cf7de0d93b685824fc062e9a899cc6bf6ae4717240b916581d04e88f594b89435147e7df3e644bff5b367da927c8bdcd9255fe0ee468b44e9d4373e5 0x3fb83d90a20dbde4c8171060d531dfa9f86feae0fb8be59842fdf07790128f8afc83d498de8c3ec0c9f63f3b0d240cde9c5a3d8ba607c27fafe7a01dadb8067233 0x10959eb168f3db4ec359fb0364c84f08a47c8dce3bb640d10e03531f3f3667c88a538e915377d341deb90a6dfa6e1d5676728dbd5b2bb8cec84a76b61f21516fd29 0xc852d20208e979e870b696346c8dce2ddac128e5d0233f84b1779184ad16e62f2bda83aed72633fe40b948996747cf2a5b607f395dc8023950d78938977dace91f 0x0 0x4185818bf3f332e36b2f67c9db9c18239094af4592a9e567d27d594cdcbe287c6dbd0ce93dc28b65e1b16a134cc8dc6019877411424a5a7664c5aad81372cd9dec 0x0 0x2170e41cb3f47ae6663ca174d57e7e63aff89f8a8756b283c6c581111314f7e959e011449808e54e7030fedb83a1666a24b190b785fe4192c56ccc602251b5ba1a 0x855ee19fd91745a326eadbef8fdfb2cf3c1b0ada21fe9f604f9efd9cd1887f475bcb378a8d3c400c6f680abfe836d61ff700ab82031e85cfb77d877cabf04a0012 0x663dd08daa6a75c84b9868a902695c62a0775e1464ce9ecb6a0770b0d452c0cf657a2ee2aa53d45b0eab04a61c2fab36aad0482f97fe2e899934d4207208beeff4;
Dbl 0x9f33aa11a19b7533976f518f7b6a93880ef0e2e2ef7d32d5b4289d62cc75017e3e8755536e542b4a11592916c055e74cf0251f97fb77722eafe28e95fa07cbfd89 0x1274c383a8d402bb0161cd9405b9f1a390210c6798e0f71292f0cd8145dea6020725421ef5d73c493f3a467d8610fcd9d6b0740958697c03cc8441cd601800044b2 0x1ad4a733f728821c8b77ffc3bd19d02ba81bcb2ce227a9d10399f43de28ac94f72c9937a160c4bca16bc8373960821b9c254388889875c5c0aeb337782d1ba707c2 0x1186c055614cd9234b1fa37207992c570f65f24676d7c746f13f1186332282f6a8a2fb2a981187a2cd651d762ac143f413152fcf61f700242e7a38347ac38062d80 0x1 0x8d3a19dc375732d115d4495127ac09f0b447a5f8c5f80745e5dea7f901ac0768a5a2f751f84bd865b5c8e7e52adf4658a20847689b0e02f9e6412d4c96d7fc6296 0x31809bd78d6075b00e7ecdbb5b184673342a9179d70dc8959002e12e2ec7ce5a96d731acb49c10dd07e5dac8a8e084b4e6002d55ed543d8ba03b979d5f5faf15c7 0x5731d7904967c8377fe9409629d00959b5f5c7d115d46861fa62fb28d927976de8062759239a3f8708d9c3d79cc4347ddfc30d147b9388d5b204efc47285f82b6b;
Dbl 0x13a24e3b373736ae07b10b59a01faa6c3e080f590cf335379bac17afc4a3fc5822af665151d7745fa1537860802bc52e63f1bf8ef865d2914ea7d6a982733b9e857 0x17b7fbe4ca764c49953cea396878c3273203cf67a11b271c3a386dbeb272bb59c20e1f2b399d2023ed4b442c4d5770036d154335539193bc79aa300d16f89448617 0x1e7a71d56b92392bb6c33d397dfca7b303ee5f2cad3fb61939504ae8bbaaad862d14c41f10d7d9d798dc6658e28e8179458b885cd7083fb71f045e6cde82f0a226f 0x1abcc79ede5db6716c24e35a9d412e7c5e1d3cfff7c5cff658b85fc2936beaa8451722f3bc3a1c2551ef025138b98cd6699b30d404d7e84752da11c0491f6bbbe9a 0x1 0xfda0d3d6745c4fa0d2a980370edb7915b1368c4fc3011834a9f8f9112978a1304be339ece4180e187e2a778952ddb2ceacb9f512bb052d94e32e07fde2b523d6d 0xc0bf41f2861bab970a050835be3b61b2d383ba417fa121b2958c9ccc9d3963ce87ff3d874f7b98a12646dfc993fb63beee3579a21e674af3d83c2ec95c3ea941ea 0x1067b396891342ed80ec3d888b62314876ccf6a3ee62b96ca64934dd2b70aaec01036a9b6fe7bded7ac274822cdc769b88bf96042eb286a90a5454842c4e0ddd3db;
Dbl 0x171b6bf0d91ae4c14f4bb8baa938101b09c03f18662319c8927519b910d7ce02572c2e1051d2d640eee03cda2848eb3d5aea01e7bf9774056cc512bf756b733a87e 0x71545ed388555860a114339a952f0f3f0387e8be9bbdf2e7abb8d8388176f0f3f2c7002cdae46ada0662b581d1c7ae46372c291e7c7f969a10f7d62684c84fc622 0x1dc42af2572fcdba132d3c58f9bf1881dbf034833114b5c43a4e5b6fd9e900b937f5c455583ac002e8c7a08af692a599f0f6943201eb9f30b0155f794643a5e33a4 0x10a2b5f791f0f6c38b2ba6ffbf25d23341cb50dbb75f47edbf7ce03b2a5b4c4a82e1af286beed9764ce518d4303af51f09a280a36bc99a52d89ab2aaaeac0f4bff5 0x0 (-0x8b993dc79b56b9d4abd4734eedbd25df283cb29aad22ffdd6daebf5dcfe631bd65901e95336e99f5839eb2391bb60331f3bf7d48e96eba720433d93eb9a4095314) 0x10af82a9ca9ec6da165b945bc24c6f7f54ed55ae287c0bb59593fe9230fb74775ed4dcac49274b883785395bdd8514a9f9384f5fffcb97c49969e908b6b25bf344c 0xc033430bf6e42878744798c5dad5962e4ee61117b0856436850b6571ec9f975d8b86210ba03c31d489e0a24b8dc155cfcb52eca9313978170fc56beed8722a137d;
Dbl 0x73c34a7da0d79e25c46f1121cac43c18e2bc3d7d065fd8bf8557ec42eaeb2417a9d8abbec483912aa0a57ef4afc69bae4165c53bf16af1642d3b02aa8e17343313 0xd3b871a0dfd7f661ad6ab55abcca4b79f19b6a33d850fa72166e844237e5c610c681473ff9abe233cd1cc24f9a1e6d5781e83d0d15391d741dbecb121bc3f5012c 0x124c605fd18b988b5b6e02844fe547ad44cb6542ecbd4995f7a8dabceb31e1d91a233033cf34e411692e5803914a85c7581ecc2456591675ff326f69bd107e6cd75 0x19d9bed32a87d61fef3a97e3fd864c3c511ec7e8ac36cf875954a53f649912ae32c45b8ece13888a63945f33237a940eeb543ec1167467925f3390b1469045ac4f5 0x1 0x8c1be2c690261312de5bef3c10ad305efc4be8cdb6b5b6bf1ff2f743ce8502eabb17e6ae5641c4902dd3e923894b48928201e11131c0aaa98d3945c8e461ced331 0x1a2c84f3b7c8cf99fd88c62a5d597297ee19354e5f511b1dc75a89ba25ff166ce138b236a7add97c9e4e117dbb86fbed123af640fac7b869870c530e3f20abfa07 0x5d8448d6bd6bf957682e443f64432e552123d015d02905e373ba91760ef12e5ddc83ef5736972aa5063932a5f6173b75be434f9766ec363a24c543c483d58793ea;
Add 0x160c54eb7f49923d035ae0e9af379d11d31fd3c7033f4e18d11b5213bf1ebff6d56ab5d4a55b3373ba9e617f8fc43541dcb4fd423f7b77abf5a5fcc0a49c2591b32 0x38782436d8b5e7269df807112bd9f9f8e58ecb1b128f28cb1634730bbe93d1d9c25cecc458ab8ec960b44d0af7a40cd5b06b0f239284f42ae3b1675d9b014a67f7 0x144ece33fad3b94ca7f3eee8933a95b66cc593c7391df96b28575990356c93d8330ee6c13447d0c85b79207dbdc96c7fcfcca0d2cc05afc6e805965e573c33ab890 0x9b404d6a07220f3b0f72ae4990f051810c0c9f18c5c1d1a7003a11367951f43704245a7ba100536a6c687544a27a6081d17d2de982b429493a0d63b480c2aa9935 0x0 0xd32e39a28d3f177dfcc768f56a6b5c5aeff05b29f4bbabcf4765b92d77a78d30bdffbe181bbfadaa41ea48e727b6daea3b4f45953b3b33181c54c93ea010f43c6 0x0 0x91812960d8d747987aa352ddadf8e17601722f6eb274f1982cbd53322a1468b8ab26323f9c7ac03e5240fb8bf2d7613d4aaebfe4fd3554122deb97668fb1e4879 0xf30f98460ffc19b55044d12810ffca2e13b67c92f906966c59f7d65469b04e5e0b69ca9a7a87844017748434419a6578e4018fbdfd1a626dd395845728d47d90c5 0x6af8095541a51006e51d39341470125655fb8d0d29e972c48770f49081edc4c5529bfb0063c863c4f3bbdf0a9a13b149b2c5b3ffcbfa67d47f1cb2f4105a3a02ab;
Dbl 0x15834af480eb2c0f6f4dc65842f5a60060b64c03e1ab2ea814ae5db309e1163af08c6a0bc614e094f1e03d3e9133bf17188cbf27e4b8494e4d5ce20b0d6a57af2fa 0x312a2c988ad20b18f4b1dad61ae5191af5b93b94b7e8617dbc013aff071fc1fd682dea1dccae5433b3e5fb36cb49ce6f107d99b85e5bc96c3d089484a011de3bf6 0x856c97626c0319dd0495dc3cda6fa2e18803f548719aaa07bf0024314b0644830ea5f83c3c9b5b093b60059f5f9252a306834e8146218c07bfd760ca82d5a151d6 0x74df79e4de3dc0da9462c3b10f4e0ddefd58f865aa6c74d5a33380cb7740fdc5a2f02a68bfd3a95acce51d42c5a3e669fed756b34292abea6a8d2d8faef6c2c01 0x0 0x1a232039e2b5032e2086b5d76f3b17bbe441066081e65f51fbe0141389a72959b8649bb8d359d8f822da3d490dc01c488804f5bddd2df7b3f7d4e6fb6c8bc2d57b0 0xe766d0f4aa64fbcb5fcd00fbbbb0f67e971fd48944ca38182216f3b9fa6730515fcfa28bcec77d9cff8a5e8af3e83ee476c3a42b94231908b732458d9b538d6fc0 0x4e922c9afb81d8109d9e694d204d97687f3397962c1b35a03a5de3f74da7f21ab71bfe7781fe1252eb00b866e0d27fbce1af93109f81a01710d0d49d4ea261f6c;
Dbl 0x1657b45272d50901de1f785048ecd48f54c7ae7df88edbca4bb1e3392ea9d1b45642564178cf268ccddf3dc656c2745b32aaa2c2ddf6d82ee35c7507a6424c144a3 0x36172c40b8c812cfde86aeec2db1f4fc1502d33358b719bd7f26aecb70ea5e265ec6fae2813d525ac873b515ba6fe9135a8ed88cf51ba4a4d6553090e366dd1558 0x1804672543d2fe954703fd3b10d5cb30e873484b2340e28fdb138da88a082f3b42c1b8e2774769e75739e90c4c04f362ad6481ebd96ef4bea4092d531183e32caff 0x1fb130057d209f849162b2be9ed33241ee0b668615f3147c03cda8c33963563d70966ef3b4b7101d8eb72462110d9e55bb5eec12b694024c766b363f3bcab01269d 0x1 0xac26ec4c166ec3a5636e1157262ac1386838f0edefe488903518ba98bc87f08e4155b046d9d85fdaddc8259aaa88a49f450b43ab8713ffab4053f4f19cd6860aa5 0xf998851d655b30e50c9a76e3da8452244d913ac7766eb8a6e043547bb756c56e82340caa0ea9d0ecd993a402a2cfc6b9282018199851c6f21d24c9b195226c8d7b 0x1620ad54aad6c3abda96217874ae47e5cb7ef6e73e1ef6c3df08eb371b26c9d9d1e54b425e4e2a141028db69ac32193011bfae919e737dafe41e6a0b06db379d2de;
Add 0x737362a61b6bb21b5e0320b28ab41bcd8605659d6110499335b5621b143db0745e8fc38dbf99ac6b04505462dcdcdd45706492a9dac0d399c4a3ea07cc5acff235 0x1db6b1f6624520b5f7089171368e79ba8d167beef976b4437b4d401994a6ed41ba0bdc23580783b06bfcfde8a11fb786875511ab7ba06b6c6da823baaab346ee968 0x1bd95d273ef9b667588e529aca78dae44325fbf57476473ab033d0c8a7cb295c1e6d6d774a4f8f9acba05ead20fbf6a4f8cf87be6efa85fc5febecd374de1f50f16 0x5aac0cda947607706dfd97d8c4ca5953439b1443c14bd585ca52ad32267b8a0abe0938ad00c5175408a3d68ba87470aae53dbdd53b14edddfbd2f4e638326e2bef 0x1 0x16f919e3a01c40de610e87020c78e5f47d2666eb21fb1da085d2e861c107f10e8a425af84094d6b019f75975492cce96a7c5b8fd933963a623a5bb212b1a3f757f1 0x1 0x52e20b11309bd4714b17bef9a9e79ffb051cc512df281d97a5e1931328c628789c99c21297722cc0248508b5ce1ed7f9b6a44961e555b96c09e5789be4052b5dca 0x1a086f5181f17ec651028d441f5e6cdadb8b0b27ec2ccc543520039985b3914a2e2bc84083140dd3883d2becdcb70d9f7ea71dccbbc901d0764f26f01183537d2d 0x14721400548a01a405d927ed6affa65581710f6028d4e6b9cb64a394bce85456a9d4b9c812bedc90e828531e01180b0594881e53ce704549e8b1ad911bfd8fd39a;
Dbl 0xc1d87d1ed7961ec3d4b835580c0f0ea940b9dd8da2f516617c85fe9a1345519a2d9ed6871dd847b82f756d9a2cd6a164d3a7080733319c4e3f9344cffd25df6ec9 0x135897aab6414fd1596a9b36f0a6c02a9dc5a194e9e968a6b09aaa12123bea001adfd12bf0c7387c7f222726a7c19913800af588ed22dc63f565aa9772fc4cacb7f 0x16d4436fe0e2f4390981cfed89253933b499077490c4bc0d377c48e6cfa9aba61f6c1e536fdde561515fe0422b5a736fc3dfa5713b3c9adf19be7946a4d8ff538bc 0xa5e1a4bac03d0e49d9df63a45e7b98fef50da5a0f8d4b9ccab29607826b03419f2c0af767404b33ecdad6c1f95e1e73074a1c228e7d8f087842792337b6fa41de9 0x0 (-0x3daf34929a5015c7aa73412d9363e088ea54db05e7a1caef3baa7ac31d257d31f4c97538cd29a2190fe9d12322eefa1bfd7dbdfc7dda4c206e63ab81bd5119129cf) 0x496411ddf121a4fb83fe554fc3425b876730915c04de56eaf6eb376464711b8af2d2b2fe43e405dc934cfcebf42b052920b38e706f97cab49c77f46c33e189447e 0x3ecdb2537909404462cbbdae338b80456def42c337d7e516902a6a7a102527f1a38e0944ef96dfcfcb3e2361aa7fe6f790a95332bb6ea2feac4c8a3d2a8a3dade1;
Dbl 0x1b9f26b30d99132a1cfcdefdbe52ba6a78f90e67aef554f99b3e04f7ccf94693d0b6fe48e7abb08762798cb6d051aebfba65ceae5689d3ec66b67ddf1e2085fad71 0x1a86048cdb79ccf8e64c2329a6618b7743b31351b6cbb6af084cd03504cedacc4b170c5d89fa0da3b8e302d5cf74e87a490259605c0eb5b7a353bc12edb0c8ce6bd 0x4aa1b783d12ac6860d2c4f4f76efa107944fd037a5d76453d9133e8b8745aace1156c50158a47c6339dba9caf722a276571c167f8505c209a6998e5189b674c03e 0x18d2931ddac782d8731e780d4a4534b35a128e43331db1f7a84dd9dd0d6d0f33cfc8c4ce66cd2ad8c63f2450d84cb09937089c28911426ac5211ee84854b83de4c1 0x1 0x452ca437700feec949162101bc934f0cf27bb28f55874bcd297c69459256f66abc91c18f69302a948e3bb702dc0eaaf33fe046cc64ad52467b302edc2059d9cd08 0x17d7a8d6e9169bb1373c71028f152c90e66108e43085e74d18ad92566d6803cb3b743bf0532421b52551a029f9f147db5e58812738a425b6252a037011d56c291da 0x156d2071201611f6b5d8f8495a8ff6edd639eb4d83972723c952347c3e72c36da6302c3805898bce015209a9b6966253b910adc2a6105e067eb59ec9c7033e292c9;
Dbl 0xa24438ce8e95859a2c85cbb59887c22ea701b2c5f675a327c2953cd7b747a844d1d761d22c42208f472eb22da18a7de61e09eb837d5fd5006d241b1814903404d8 0x1a764733c4c93308342271b5e7272317de322b24742abdddf64f61ddfb7860a0cf28b99d71820faacb37aadfb33b5ffd87a8274f5b0b933a9ae900fc8509c9e34e4 0x1fcbf680faea1aca7f86a931b045518f18a57e713d0b8330d180aa020c8d96c74d9ac371f96dae489c7caef59e4712b372835faf965124e26ba8bc4330dbe27c574 0xfbd5916b099f0b229b173bf3a685f6580e82d42a0f8d111fd6e5709567a2b7bee52c01877fdf8edab57f61c39887cc15a32110103227d086abb1668a6feeb1d9 0x0 (-0x3eff0666a6d97d4e99313a08e06b0e820948bc20580effc79ae96b6168eaec5a3eac0bb5a09091f429ab9deb585f7e78a2117a258e57ed28fad988663d4b025e208) 0x336d3509d36600c8a660d6060946fadc2449ffd790f897f3d6394b1e80dd1a3984c7c7b3d01ccd3de9d11f16fa17d087fb8fe680f385059522a7be5441bde08c1e 0x4fd0215123399776029ad4ae0314617c403fd19155d924c4b914165dd8dd7ff25bcb613c837edb3f5f03c42c7d7d6bc8ba65dbd58e48647769bf988f185b129a;
Sub 0x24075984af92a65642248a08ca08f6fbdf8831c10c3090e9e5f2f1c72dfd50cb1d7eacf0fb3be82f770279e73d9ac35b3ad8cb4d8d4d658558b86940f18a2aadc5 0x4a05cbef717bf35db08a6839f974107e27d55cf364f438a3cb80c91cea5dbdb624c00a74dec200700cb0e62f337002c8323d2168e99ecbec68d856f4c7b407d2c6 0x1d5cfdcec3f342b22dbf4179b7a50dc22af77964a58817bcb56a19ea669573340f9ef07b02b59bb0371bfa0c9f1ab78decfb0fe38220315d35cb647c559236a332f 0x15d5ea74cdb173d25919cb32478fe20ffbb4d5553ddb7a53b997554c2cd284c56cdcb8f62395efa3ca6c9c7cc0045fd104845538cc71a67bd45b7b8d388e896621e 0x0 0xe0dee535958f2b997488dc930c4e9bc9a0864dc609a69e2a42fdf530571abccf37ea4e78a03113538a7c903a0c13002f9c4f2c41ef33c9671296914a1ed9b8777e 0x0 0xfd2e67aec2b1ccb287bde4312d194c7763fa9dcf550b57a4a2d92abb84a17f544221a6dfb1a3a14452484d0ea7597cfc4daa97f67754018cd95fabe59a39911cf 0x28908b1aaf82fd36d4f9d97dbedb45e24420868a8ab45b9e5caa618dede2f826d3a856352467500e0681e08412e615fafd6815ae35ad7557ae07b83ea34f3eb77 0x1895aba42f3e8ab10672601d95d5c57339c9737b2fe1ef6bb999ec569dfedc17f36267ef529b212a5afcdd36130462581fdd7c57bde17745621b9e9310009e318d;
Dbl 0x1ccbf8b380e63d821cf07e659e05e743a534760ca3907275ebae044154dda2225d7f67248db15747cda06a006ebf275baf888c199529b27f7c29c6a3698ca86d679 0x13c48f1cf75307d1d722fef2c04b8dfe1ff4dbdff70352ea39f6b1b35ac6ca5e08b63588371e19c392c32ead9e806c59afd1f5afb4c24cd27e2f3a10e253069cde7 0x181f14030189ebd9fbcd59fc88a407b17f959c6bc03e912d47696d55eda70303d4d5f163ab887f67bce8e82d98e28a68c21301c271ce9956d5afa3f54950661133f 0x10dbcda1ffc4b76403e5a790df4bb309c28879ef3f4bf0a002c15ade73df117d5995cb1f16ce06436e07dfb554b693d2d351dc66d9d79fec485e4b5e6a2839e04de 0x1 0x32d75ff8107888954bee1e6cd598a5ea68bf84611315b87cb1b60f49ba213fa050e227c8725645d03f0c738d500a6cbebfda46f62d65acf6d060323842a23ed5cfb 0x19ea075d13e891ace5dd4d4e739a7575f100bd5503062ffe27d1e846493e4353a6eaf7480a0aa30dc4d9cc07908d9ee298aaeb993d0e44b95a18d482a886a1eee42 0xf2bc9544690eb8baf2b0d569e5ad62ca64e4a96ccb32ff54685f905c99b6ced29f3bc22e56f6b7307bcfa40ca7a274251e97bf0487b8014c28cc0ff0ba23d56580;
Dbl 0x6e118e1ce98d81e8aabf1f99ca5f3b8d20b270bfb891d743eeb9bcd034d22abe17aac320d49800c57f3c3106185490f5a8d5a2669f0269edd9079fe0e0f9700bd8 0x186a42297a1dda95f498566698b1f3290c633ced7ebe988d6ff284090e72ac1e1444c0b804b67adf947d44e2f80c0ffe7b74992ca74f38477ec3ea5d9685e174776 0x34597bbe6854f0373d5a9f95d61ed2c3ecaca26a99a9159052a86041f9cd7c3c4634125b02fdd7299a19261230183d425f33115d63eda6f440f65158e02f60de7d 0x1b5a4cf37d352d3be28aa88c27999ad513919ef27844ba5cca042daa4c541e3ff47174d032679ee3fe45e9caa6745c5b345d5c830d73148aff6b4fb34bcd2528670 0x1 (-0x1a4361dc845c1604b348e170954f66b91cb06a2bc5059c04941f7546bb901afe5aac1fee37b5ef1dc2649c25c826b6604d247f8b219713e83c9a851ff82f94a9100) 0x17a98baa83b85b660de42cc6d01e45c933d61c3344faa21a27addb54dbe912b7c24a34ee37b216018f2e51b47fa9110dac08319f3e65684f7413be139e315e9d04 0x5e1569f74bdf95a2492fbf3a16dcb1ba6c85288ad687d6e2a02900a8d85512b96adb9e05a9ac24adc0e9a534449186c4281ecb24f1690ce65ae8c2263c7359b33c;
Dbl 0x124a96b741b61ec362206e8778cd1824075233a1a14bf20b195bfc0e0d7144022d177f048a5c6228c7f7aefb2b049f6b97eb5688bf1c4159c074920d3d7b2743c32 0x13d53b2102e253bea169364c502029554ea2bd5bc78fb68ac6cd892c0530f808d31d467ef376068099e200177e88abef385f11b17111b832da7c7b55f86b1a016e4 0x1f60ced71ad92f651cc2c9f2d8e7f25782e3db2dde6c2c8aee0e7e5bb8c296fd2c73f1a3c2592e86ede274fbfe575395628d3b02f30039304cd225540947323ec1d 0x4950708773b86d7532f201a4891c9d3bdc07f91b72ee202a924fadd0941b41541277a391140745efa9b44cb7983640f4315877b363d8014a4476f079e1ac773092 0x0 (-0x3424c0dc27fa33716f3fc4355339450ecfe07d0c67497a8f4dbf4aee6fe2933d6ccaf4fd11473e2b7ef1fccaf0d78177529e12c87b92cec4602daf19383a5f581ab) 0xa749769ff56ee6d9061ce71c44e9c92221b616d1a43a80c0f79a3ac3e60334b0504d3e0ac12c0ca531d14562179781a52a8de592487d9fb577dda3b1df4a572c0c 0x29e8229d545e71ab8563690f0298716ea6531257730eacb99be0f4c936747bf6d6acf8d6e2f6a042340670023fc6ff0dda18d5d73466341cac938ec08f7db31616;
Dbl 0xa1b8d9f6ea8cc769fb029a3431734438dcbb7734bc25793199356cfd35f1bafb4014e575c53fd8bb74a5825c3eac21a79f85616131595888b4f0752c509e43e85 0xd84d0734d4b88360549fac139cb1d64ceafca1876872962236cec1e2f5cf7ce3ca13a2edc443cb49d772bd5fc124e8897eaa859111b32ee2479561d4f776677a21 0x1353138030929b15cef23f051625488e44bbe8a9c38fe9daa5c6cfb39ea4b3d3bd6f4195cf29ab4eca3b873c5c1792b6f48dea038cc2f1155c17ee2cd4787215a3a 0x6506aadb596cb889c1f3b8b16550bf07ff2f34351088d28a3609d0dd5d4003a967c0c501731c9cbfc6ad44182765d66a07469585ff68544b6032538a8f3b389cc3 0x0 (-0x23a32092441583bc2b6ea37e856a3838fe5cb8408e841d25eec365d9b0c65a9f31d4cf947430cbf1ae70ac4559f09cef2a30b570207ccbbb13135d0c1e1f23570f5) 0x331503d14fc5627e1ecc57724ce41342040594e796ec1e8f3435825050f25da700bf061fa7ffb2855cdebb292b89cb80c977e3bcd375ce1931cf4f6e137af6d0 0x1fe912216c58b52627189b93a8d764d3a8ecbcaa44d1b15dbf35bf05b5d368768586d94defa158d36557e2aa287379b6f877e3f991fc5d51fa4808d1d07389b08;
Add 0x1ca36b71f935701c481af6b672d0e88f0a7329c0d077f5b8eadc9e729a6ade8fd2451159e6d7c9eaa78b78fa5ef989dc2a3adc267d4bf2f56475c58b6761c03fce6 0x5e7c039b7460bf58861d9dc58771d4a376d88914245a36aea0e83dc1db7cfb06c5dc1f8f59e52aa30748c3b1e0f764aa20dcbde324fc4875dda8f3b8c75f12b696 0x1419db8b9a61eca85201a31bdffcaaa7b9ea2d40930e85efc3e8f080d302dd05f18b2f1be6cb9188a59efd1cdce1982b7a7411e45ab3939a8d1c5c73650bb63051a 0x79d103996057c407ce820e4e154001a97424187344185f7395e684211a5281dd0437835e6a5ea0a6d029f9ade02d83df5dcdc7adecb6e66c69ec6e1c301754c38b 0x0 0x11c7792e1db47e7687016d48368e4098a8603d062f6d566d14d6993395642fa60f72578f4c53e3f0ae749f9e9981e8e0a0773cdd502dc49fab9be356c5b381bcbb 0x0 0xfe955cbecf133d1b85cbbf7db929ad07f3fac3161e0ad1c87eed4f0136548227b7e715c15215f6782ad6e9ac08e3903aa873c5388581075af6c446b2240c74fe8 0x19a13e9775fc1d1c9a3aa657448a5a1fa200cd87cee1023e0d7c9b2f2884693b042ed1d6e73374b806a49fdd032eb1ad0cec38f87f914ea8456875f008661264f79 0x6d04fcd54c5aeb4dab876c4b8d0be8a6201cbb59487fdf3b0d70e940fa11dde1e99dcff2924d53ee3df2902ce9c19e0947233e648f9e05ea95af00d9f85d3edc72;
Dbl 0x1b4a1e4badf65f744d3e6e7cebded9ff0fea540a0440f5c0a9f7fd070bc29f69040cb6e234c18f2a0370136e64c5f45e7609c3a361e1396046eec97e12327ea4ef6 0x70ed01503f51a66a4cf0550b303483aaace480fd5bbaef8e34dbaa7cb37e5b17f62d4ef0be337a49c339d5cb2bd749f68fd5077bd5932b97ac949e4b35129ff0cc 0x1f8119a7ee3cf14437144ad4a4b91ce85252fc400b815ddbb239eec7e0d87f2d16ab00f506104f6d150afd5b294e32999c256cd80201de7cf7cb6871c2709a3ce88 0x1ed8f024b350f18ee392d48ba573d50f8c9f40816c89f47206c0c934527fe9feecfaed09e9bb1b059440eede6b5201ab39107b6674f691cde3114556d924c72c5c9 0x1 0x1f03d0c121d48c2d94b3d3b8b517330c7e03efdbd846ea329a663f03327c6f2670a61a9f9d499bcea15b8cc91c3b2dd6daf8d0ba882f8d7b3d5678bbb38d10339b1 0x1745becbf042edb6d3cf6e272fadf63f0a00ea2529de7f2db269edf6f25566adb0c5bb51e828aa06fbdc2a6cbf7cae569f9c97a7580b0910f03613a7efc6ab28994 0x1a4e7d7ea172871ffbf8055be55768d9658eaa789d609da78031243fd8b608f86346f012a8cbbcf78b9bf36772c4c66365c6f1d4eb326ccd094305f6411edbf867c;
Dbl 0x1a861b4ed400928321268d3f193737d9f08d556c65aef961e8f70df8c952d0bb859788cb16f75513aae0b5fd84d88df4b83214c0b3d8762b39ef4fc0416e3fb1a6d 0xa966d81cc9baeeb6ba2281f3d77bcb5f216361dfe9378a62ca556a75ba827c956c4d956828cb5b4b6020b2e9e7c3b674d3df40a790700e072bacf27b9c5e256aae 0x1af07cdea9810c5996d7ce0ef24b2957a7cfdd052903e613312497bd18e5736a7343494eaabce31f2d67eea90a0b8fd21e3ad888785bbd845d880488f31e795d5b1 0x1c78629337596b7b392cdd31758b8b84b8b811f1d7283652b6a864006f8fbde8289dfb98895681efe631922e144139381bbf5c6d445231d9080e7abcf98b47a861d 0x1 0x2f8e52ff2c1695c664225f495be38e90d2c3a0750f46d2736448ef31faf4efdd396a4c227a6b318925f747f8b67b61a11372545cf1cefb0e470acad4cb56593e7dd 0x15fc1e64e3fe3ad016a364e439c56eb9688be760d09842ee3b966a5068ae013b374521328a0bd82f6a2f7c82520bcfc696e7f6fd834244ff0113493d82060ecf9dd 0x179920801aaafab9c9dbe5ba0785c881ae4e9c96fbca5cd257be6f5d9d0588e11393770ae3352b24436c0038ca35380ebba384cefdab9d4411b17a53174720097e0;
Sub 0xa2a0b3b071bec0bae12173fef7c0aff39f4ece2380f8e0d629a7f0d68a76f31571a91b8047fd7dcb87ebdf995c2d8c306465a77954bcb8815c6993dc991480cdd7 0x16aa1e2a149ca929650a334363a36100d348fe8ad9c5b5d5d36c95d0e86cfe313d0d4378d7031a41005e1df4b972ef6c5a598ba24bb2cca3ee55423b1c95b36b24 0x1f96c031523cdc17acbeb37e747102ba97f586c8c3923d27fe84df116678b17eff3026db0065b21469d0c431ad70cb30a1f6c2d92a8593c7231780797fe3815858d 0x92bcb9f2b51e458d55184eb073d86a5e4e1a63550f71d48cf6e8d4a4d2157e642f4051ef51c8410a5fc294f52e50c7087985b50544bd41633d57b0407fc871ff8a 0x0 0x1e2e14a1612b6e9ccec844328715835aadec6fd5eb0324aada85d41c65a172f57b1ac4a09b0db73f237229528c020b6cbf5abf7f3ceeaa3c48fb373fd6a9b3fad47 0x1 0x9960d8504ef0887d61c3553440078279326d7e12046074f73b89fd333b111670741d5b72b0b005af8d79b047eea6fb31b4987541a1ec41b4a24683c3fef7aada61 0x33a7e4263551e98564700658d3dd1662e17718753a1d0c21e6321f1d9ef846f42693e0c2d2e1fce59fec7e0c5233ed0973fc288dfcc677a1a0536540f4a23c88a7 0x2e9bc54f73a2c58732aa961fed9a22171f78242e391d19ba7a172c6656e4461d450895dd5ca7ae8e5ea46135c4891000f212a7caf68ce50ba4da1c35eaf14c3c58;
Dbl 0x1adcd014e91f959aff9ae6dc45d5bb9720e6d5817f5784f13687dde1460eb6039309b21d0cd5d53f452326173b5c677a06c5c1cb5e9d8de4f4009b4e72227502c2f 0xf2b595281fdad791ca2d1f0a80f1aef20895db6d461a7d7861d174f9697a6d2809a03fe36830c87ac95089b549c4a5da6ccd29221f9ff6c47650a13081a1fa9242 0x117abeb30f77e258297dc387ddce479cbfe7283045ff58fa85e028879f837a18f983fa6d9ad701d653743acf22005fb8b38c726a26665e73fcd6a77af06f50e253a 0x123f48901f4c1d1979add1438e2b1b20ecab3231d93ab385d719b20d77ef29109336d03956ed251c6370d943f6fae4991ed8c62802c12d5df7804a10a9af3b8d8e1 0x1 0x34d8c39e47991ae1e799e251c0b8b74c34f49d9de8754c2262917757730851904c408f879a33c2f8c1710a28ca8d2319a55bf658d5b673923003a2e62cc4f9dd567 0x168cc5d46368a9a995445777430903f87b9373120e5499320d216d011bff7e861545dbf349eaabcf34c5887c6a74e1ab89e1c812c1fb1375f7863fb91acd66137e9 0xf5154af3c69f365ca66f73848aeb49ade4c36564d84fb0be984e8e23f75b63e29372a46505a47eceef64be941091f151bf013c7a1aaf854fe0de1a8afe9b9d2d78;
Dbl 0x1e43af0ce1cea34f8e884eebb1e00ef9acec9b06175e1a78b8abdd71fc26e540acf2c5067739e0f68cac14ffc3135333ff50eb7a93f53afcd14e807f21fee0f147 0x1bca0d8de01fff47d25c1da8c6b0e7fe83c774562e215e707b86562bd333166b0d655e46dad70d957ba71f1cc0a859d7049373d98a57fa030037427b7593fd8c6d9 0x13d101c145e5d3dc41f56e8ae2efdfc584325634a99b9e499ab7a7d03fa08b1d781ee190d6e9c5166b6239b2c49e95313b63b1606bf37c42bf9f110bbac499ca8b 0x13614bc4a1ddae314a46b447e15e32f09cc1e960a64049670a96c123c36490677334a5b75babfef230ede97e93f3f086a2395eb897a20569472dc7979286221cb68 0x1 (-0x138199f674976e33a248ddda8184252e9673788ac2cf717791b2f90cc0f67f864a7eade097b3f7ac73833d799ad1e5de82d6061c74110c95032d054679dcc09cf23) 0x1c9f7760eae9ee74b6fc204ad405433c5569984e40349d25a80318d49415855a6a137f6bbf45ef8b7bb167b6e3b60fcb16f79fc5666a147a2a7444d9e802729ac 0x125434c2df0bbc620cfc550e913a7e213f3330a0873e36b3f702e303393e095a836b572aa624097c464e114b0e45f9cf3bb36dbe04742250f8a5d1e66186cb9ded;
Dbl 0x1db760e4abb12ec6805bfea082249e4d29d2cec24b83d96cad31b61c57d5c18d0d06505c5443f29cc7df8698faedee72861dc089a6d7102631a542cc4892a1af940 0xf3af9d6051f3b887410c87aa8194621eab7d88d23511b4b860886d5cc9e7b72159e9a002f333ef3585e63c613a97624f23f06d0fd5155accbca15831855db0a4af 0x954db71e0fdada001893dc3d9a958eedc097f0d4cf888a43b24051374f55febdbae131a3fdd967e5c902023144139c6374c529f71c3bdc8767f4be118bf2bb0535 0xc8f13b7db00c3bf5e4b552e1e97a1dc990f9bc90ad04324f57dcf5606949af8f7c6c446aba3cea22348bb56acfee3b212546d088d06a456346d2cf85d3e228222a 0x0 (-0x4618f8e473378badf855392054ab75fe0648c20d86ae0dabbc9eeb44a14817ab71d2d4b46e9a53cf0062034f2cdbafaa3cb2f0a7d86e0c7c04f4124775b55367fb0) 0x1b987a7bd3ff478815b5e1778285093bdddfbf41a8af9ea0d9e522fe267d71f0a2a2d4ea270348360c8d91db26ff62cb5a67df71cee1bae8cf47631fd1749b4a261 0xba9a21e5bdb47deabca7abe761773b0cee757ceab363af905ec987043fbc562459fa68d4d0052abaaedc690be3f1669643674bbd96e6e608744348932cc7cd6b40;
Add 0x109e5e4586ba2779bf3f7d86b48abc3ad8f16456db8b2692e9332618300c566fed6a195f3ba8c6717c30d0f05072c68370e05c76a58b90292dad71d11a9bd5a05a2 0x1bde920b6338a8de0c0f606d6dcc51ac3283112ffc469d4077b557a13f5a62297a26daa07e98fb92e02be8bd8e1a1d085167588f45093daacd5edbb4781edac25d2 0x8318477a3fa99a9888c0403b055ea2bf5c612038d8900f16a927b49664478070f7b257f34e2255a96fdd9f05c09a181f5976b56da68120307a0518742df066d566 0x135c67caa1e692aa6801680d3a4cf475b834c75d270a7e0b0e532f348d4419489b77bf5fb09a436078327b08858f591ca0d7ae41b8481801fe6b39cea0370047edc 0x1 0x2d2a0f599aefb39d736e48df1b70cc6a68e12450fc0c75033e9044ad697c69e39f4854a47b4407dc5ce81ea012f462a645bd245c138ff08a20a7d9b3539acae749 0x0 0x17748c6645d4062350e71c310316a8e0a5f319076264fb6e49c690906e0a7e43e1dfff2deace5486f4d1a62b194d2d44ddede8869641bd866b037b9fe03354d5b3 0x8a16e098b05a4547370d6a2c3bbde90354decd836c6543a8daeae8962417b115fceaa857e0452aec57394734a53bd5ef46f41816f1aa9f44b9a434f75be43acd63 0xa0e052f4b1947e9dcc2ff304aa7177b364c05f1f5b266abdae544b3f50762a24f4eaedcc2e09e7d61f28a1169f5260c4301cf6b3196e155b590ebf4fe3e4774763;
Dbl 0xfc2256e4a89bb59fe393203464c9d0e10800294e1d43b7c7b98dc9c402e2ac230e28a36049ac9f2ca7e2a6846e73f6cb4c9ad1490fd793e119c4d2ffa71a8e4a02 0x15af30b6889ba02e74921c232922e90452c113acfeb6a3ba519f29ae53e87b803e57b7ebf2a079f621c911d5353077a227047752d0823df768ea8afc9190f034f82 0x2d0d07b2bc84686041c7a43fbe96be14598c4633e12722f0842dcf00cc0a7032a5c88606d31b20087e7fdd439ab0e2385ae5fb0ed174d0b67bda64fd338acae8c 0x62f6154da9d08af977d444a44a968a7dfc1fd82fd8ff98626162df2eb71e6a93bcf22b48bf8819cbe62d6e858e9a5662a62e13c7486ffb3647450b7e68dea8d650 0x0 (-0x40bf0fbf3e9a98c727d699bfbb631a53ee437e3ce1a488ad7b6705977ff800316b6186007339880ce4aa69133999472d560d8f263a40bb69d945c3531eba6cf2ccf) 0x7c29cfd6af16e23a3478e4a39b9b69fcf6d77cb17436c2fe704a790b66a762a1062125f59de9b07c782b25a32f61f37d0479f0550355471116e908976252be7322 0x30bbc19f2b7d4af37e6cabce614d4a196e4587864e96689d0d3105e7559295b3ecc0567de9271a0b2bf8235b00942a940f02bd9ebde587a98ea61751379d6eb752;
Dbl 0xd271910b5e99a4630fd4264decb1464fd96c54a7d132dc0110243dc609a5866cd7f23094f154e433a256a2e593cd0f14cb8b2e7ef8974b145b82b06b983b2dac50 0x14333a334518a1f8917260c989104e7c89bb613f45e371b978b0f16f847376551f583d730cd6b83c23c5e9bfeb85037854c923ac66b57f3feb80c4c473a1a94cd46 0x1efe522e5309c75375bf45d3572d9cbf04ad362d7ecd3bedbee04ca085425eceecf4dded247796b4c03162bd79e7ae5c4c21c04428d746fab1ee8ec1efe8debaa90 0x17bf6834382fe35e31fbb59a0129a87c905b26db8d33200d8ee383ecf75052b1eff7a78e5c9c1b9fe03281549ab7429d23b53a669ccbeb77d69c6381def46e823c 0x0 (-0x2bf0047966581f0c0411d7f75d6359d2c30c71d75be539f05468bfeb900540f1bc61e6c8ce8d9e58bb9ca7c7d705cc8315e590e22eb7d7caa01e4b85f54c678bd77) 0x567f422c02b5bb807ae6c8c1002a93812798a58678b5d489d0c9ed1d7aba40c96d807ecbba556110f8abe965455253b5225852091e58c98d28adb644d9507fd34a 0x9c2c6362694d6503740bcf30afbceb24e3eb3a0c4da65819a4e2f898f337cf6b408ad4561336d369438525b837ffef4abcad472a4121033fb626535da6c03565c;
Dbl 0x6cbafb899e1d3aa5eccb4bb7d38ba268513ab51a908f414bd7842361ac9abf6b539c3ee28ea917203ca08a42c40cc4dd8a962f975cbe7d513bad0c681cf5668256 0x1691ef8c006658572a370cb208daabe271857f0bb7abdf9134966890c64f1196dfb7aea2f506c12f7981556edbc518c4ff30a5bf49f217f5b671ea1206af09e02c8 0x1af3a35c2bb8146b64754c119e716d2db11eccfcc240930bd04d0997ead3028f9c9032c652a0f11687b4f0016f71c2561dd83e3393b2823f1c661f77b163193dc4b 0x1da14aa744b249a1673b54178035a29a1835e2338e379228441a88debe2464be3fa08ed017cff70caa4494510fbfeab355987ded1cc3674a350edab26cf29f6ca7d 0x1 (-0x1917225ec66d44c2ac3ff8ce67b9f7814111a6ccec411eac79935529c4b53ec5c5edbc4f8e9eb826009bd58b3555868b2f2379973340a281858436a9f359db54b57) 0x171726674c44c8fe936ced7b308076f0c41c4d83a3004411bf371a0bde62282504cafcdb587a9eba08fcd63fdb8ddee51080ae7a1dd4f5c0c4df99ed8a6ae42870 0x64ad7e5f029814d4c865ed5fdc9bb5f3595a6d1b50429d819be6fbb34e9ec6a80cc239109fc2558d8071b19a2f3cba43ee6a6bca5ed238cac2ffde876304f606dd;
Dbl 0x164dbbce51a915117083f16d7a78af60eca9d70fb692207a4c1d93d817d5ebbc128c472bd785bc53d7217d9afa48aad4464a8513a9180cf10a588db4f5523cad3b 0x16cf203086ac5a8ffc3646274c890e8dd552bf23e21de8154f9198376393df2ba938068e4d70df6dbb49b414ced28e95ff7381ec2b4c915ad516f5fb065614e3a43 0xc49c2d8ab93a2e04b67740fcc9779908cc4ebc9ff30e34390d4c6e95fd2b1ba47a004237cb1e650ae316db21ae0f1818d3173c093e6b3a6fca4b5f20e555de488e 0x1fc2cf5b79b9fdc72e00c68abc519d549c32bfe7d58df77be504d05962bb326b367fa814a795e1c1be37a15a0cf28a2effbd23d31ea5869ae15af4170058f4fc884 0x1 (-0x2d68a9a7741c66654d2e7afcca4d68a76e958180c7944ad34511ba57702c9ffe45f5b47ba01487d4756215e82ee74e3140abfb26311760a779a8c34f41eb455b3d5) 0xf8b9f0fcf6a0751b631728dff6693eb3079c8a66e4b3f50c9e30775b029659f6eeec20738afbbd6a31090e41d69e53eecce0590794f590d8737a78f1cda9743a 0x162315b90aaf20d9e5b58569d18b91edf97c65ba654d48f82693db29745c012df2a9732f650b7c67ab6a12b4d97935f68ab278f7d9355cfeccf64d2d994e9dba6d;
Dbl 0x10b1600331ac547be39e39a2f04b350ad617ac95fa9727abd289b33e80cfd87721507bf1617fba740895593e57c0c45140017bb8bf0dec42b4424299c9341cd6d9e 0x1800a33dd2fd264e1ada95d5ae47cb484e416b1075df8f24b4b49911cf5e5d86a3145f7505872f379e27e0502b5a489abc4844207b4f9dab50f066c0b7818db59b1 0xa5dadf94238e888bf2ee8a4a6b40768c32fdc3b0de631233eb0179646414f58c2862bae40dc86f5dfd411541628621d61bd9d3dac19e8bd18bf5014ba1e4e22ed8 0x1ece7cf2b3af3441e15bb0519e414345871154136c3e58f09adcff25943581a50623a71947e9b0361d21d3c4a37845fb432b3dcbaffcf3af84268f3a4ed4872e091 0x1 (-0x23f41e30ba897b2112a330f93cf7aeaf52f228cd5fae58a93d03d4655c03c93d35959b768554f54f3bb3a966f6256abd566e3de6aebf135b93f65e1455c9b5332b0) 0x8b537327515013e1676cfb90e39a56753d2e6302475cebad0c28c1f609ce3226f358c6048619818d6bfd3ec2e14cadb0c19807030dc0b018395821024be17be0b3 0x1012010b024f6390fabf713bde26d549b65a111edb8321357b75ed7294f109e7626eced982b9b5a2662c13cb310dcb38b9504bd877ea1ffc9c975571bf5f51f20e8;
Dbl 0x17d4be298c416d9ed57eb6fcf9f7943dc201145b882988b80efbfe60d788adfb32ff521cacc69ec9a696efaa7a504abedb6ee6b0f2d0d8be1afa7347aeb1b1e73d2 0x75526dd5721e482e3edca59d2378fc263cfd5cb4f6b03ca8e9133fa58777b07887d6808af7bb067c7c3b57e2bc0e8b03e5e1402b57823972b3e8a284a3e73fb2be 0xbf7067966fdea6ccbee6b534f18dd86c53f0dd183f1489fa000b8cc2fc0d3c929cd0fe73936785b55dc8d8851d1c73e0514e35a06929ca67fe8cdba0a55127504c 0x10ab7c607bdb41cb36eccb7bdc103b85ea71954526748b5a2623651776e6e27f1a96f76c560b7ecfd6642ad1ff995fea7dea301dc5d77a1425b1dc986d4319ba6f3 0x0 (-0x2692601524f2fbc5d5cb7917703c10345d39889fa6bd160f1a358fb8a2ab62d7cd3166aba51159f966d9962862c369710a3338259c244236a313aa34a97f7034540) 0x11bf57b7ca2e07fb8f97093ca9d22cdf852e6b5dce7af6cb5e25e028f9366ec015a03d0078f187e9325f3a4918592d1a648e2d985dcd8bfb27718fe5ffa73580ddc 0xc6a148d2f7eb47818ca036d9a78ff881cded085f52e59723add220d181a06ab9952f12c7969f9d4339a538bb5a4408494955a5c1c4eca2e8833713b60366e162ce;
Dbl 0x29204b31e8eab0e914fa0e8b6fe71324fca280af49f75ffb45b7dcde5b8ef81b6e0ca45e7bc83cc99ea2158d4a892c5632208f783370a671d091dd6fc41562af5c 0xfa328b7179a2d2228a4c49782f1f7e3d60a7243ecf7296ec89dbdc880d6a04591f0a50eac70c0ca42ea8f29dba46176c1fb9304514f9483bc1205e90dae8c413ce 0x96bcb67458bcaf011ad7158cfcf5cf596a5e6b03610965a2d3001c0ebc149f62fc8f9e039f321da5205dc948662fe4abdd4f64d12e00817b549ebe533949c8aadc 0x17b1fe263f87b760bb4905c24f4597de8dc563876273da5bc5f37631d7a0dac1f68cc2fa030aef9d84d92654501c87397c6280fe64288f136f2c843f3c8fe7b9eef 0x1 (-0x31e585882d7f73c036f869671fa51b006ef51c916c3c505e60f94bf9fb396eabb62bba1dfa8a9438621b9716b9aaa28b04a161e04e736bfec8fa04364af7474f97) 0x34dae146f95d7c5b233ed3f99aa13b39a3ceaaff41f00459680809a8237eafe533809881de00c32f9625e0673150b800c2c911605e9ac9be39fd3f672e4b4903a 0x1e73f74d48547549fff2297a7cd9371a7ae3654995ce868754f7edec5070f7e91f959faa190f6a97f62f055925c418cc9f5622b2d10fb8cd01ebd41254325f7c44;
Add 0x4316ac1ee45376f3f9e057ebf5a486f38bae80c9c8f4ad421bccfb39819685707dacf9ad4ee3955ca9a4a8edc196862d9bf578f30ab67fdbdc96f9692539fb36cc 0xa8156c2288d85c653adbc20de39200bd2879cec09a360862a744ab4b71cf31361c206a1789868e93a32025d53507b9f0964ffcaa291dffa480c92dc3c26c1e6e5e 0x13944018978a4ccf940d35ad7c815d70d8a3275d9b8ba9428dec70335fcfc6d959a7d17c0e3d70b56b9b80c3d41c9dead26bbc6fb5d01a97ce396b6922b04a796b8 0x521d1f4ef0ca75bd4f70876a4b8d7d80382d557e353c8e89e297313c9b9ad32302e9e6d33d857e108b88ccc8853e5d7b8969339aebdb4897405730cd187ca5a570 0x0 0x33acfd6ac29ecd38bcae0aacc8fbe8891e0abfbd966d573767e3b3d8acfeb71b6469058c4f1c254b05aad4dc92a317c34185e7915373ddf92526e012a925de5668 0x0 0x6c56cf7975e50b69c13628a18010d6c79772d1707deaef84e21513cb97b12ce11e20e8c1e2b321c0f5618d9c5dab27c1a6c59e6db5433ef2e3c7f6ab7b69879ac 0x8ca700d1a463a934ee37050ca36bda0e5249ba5a8251d52f626d99c5c3a28957d67cd54d8d000e018e00d6e6d567347d12291b68061362e5c577fceebc0058d02 0xac27273e9be8c5d0615059d658cd140099e67e8eccb4426edea843f666cfa0d857227cb8ae99afec6d38fd61c27214b02f5ef33f25b738c1365cf5a26e4bacc54;
Dbl 0xa4c4b282c536aa55daa224bfc2f4034d9ad26e1921af00f3ccf601afe63b1c9e591b5cf3a478f0eb5b7e09fe91f23a4b6d0055f3cba6d81d01277db4b6fe037349 0x677bb651a20522b7468af5c46cb7bfe6a882893db47d48f962821419e425220da12876a3846797b153e27f64d6b9587d823924f352e64cd42da76e69be121ba7fe 0x56950708eac55eb3f3f73f32d6228cd0552dda2124b2f4ccf63538ff29096f0b9cd090d82c98243d58d2354a16922bb0c90875a3fceb57779bb36dc9ba041aadbc 0x4099b5d0e6d339adf450cc4976da40d67ff74582e5b8bf6944c297318daa0f287af7f374051ef6e24f3da6705e4e61731416d7b6d637b2d05321bf5a045a02c660 0x0 0x241613ea2f0b29d0f9e3dbbc5fc098e735cb3e7d23b3f44c65aa1e5c95b5b396a44a4f52f843cb8d9832a63a71f86d0d5d84d096a456fec8de234ac64637897a99 0x35064decb0b3117fddf40c36f79f89ef5be1b27d13f4e9ef2466757e748990dd27b60dacdb142dc89cdd93780876d3d056ce1152c56b4bb81b636e84a626b7d9e9 0x14ca0d9a7406d9c8c3da18f34de685870d6e6307419f7fa407757b8172d334b937d80a7b0599a4845d24b5180bdba869d87e1efa295851dfbde773651c8bba9314;
Dbl 0x1488cb55374eeeb2f3fd43113cbd57461141d977d6d91a9f60bbfbc713684e1a765e5ecef0c92b1d013f32c8f45da355ce1acc8490f307f0b0fea6c5e332edd00f5 0x7c1bb67bc4f1a47a2cab98f6832fd9681fd803a639451943b35eeb82b705fd41327338840f7b531313f188de7e42bb46b68e0fa5cb05b53558c1ca8e31d783223f 0xe0f5c012bcc94fe001953f1e6f96550ae0e02d9950d50144958eb2f55abdc30eaf239f0274008548306fce7efb146970bc87cdac12d98d9376dd2e3eba550a9cbf 0x1eb5fffd5dd137e3d19df5ccde987e67e88aa85977b382fb5af2328972d1f24cc6eb53e1f74ec449e3ff0f68658769d36cbab154d87e0979ed4e5a3db8c3a9885be 0x1 0x305f5b194685318646f7bfe389605c84d9d852b5fd777439055852c49f8d07698fc2c515cd8a0a1418a635f5d6a8126a3de403710f1698a94be7a2cb7a5fcb9631 0xd2d46efe57ad9f449812216d675d3fd7aa15c0ec145490304e5e3e89b4332da584c11a9b3f8c47e3ee1ea516a5a34273c179469bfc53b8821f5c98e8ed48b787c2 0x13b508a2a7e550f52ad1083aca4d8d65bacc215404f357e6a02000da47bc9ce74fcbee07e61d75f78e8d172ec84504474deafdef070c7d0fc3d4a8e84b2ac274ba5;
Dbl 0x1e21d551d6c170ae91cc0e39f83313931286bd41b8506175430c28844eb444f3baf60dba6b3c28174b5d4a3fb04c6236257eb1351c09644fe0aa5d9e5eab738154 0xc6858e06b70404e9cd9e3ecb662395b4429c648139053fb521f828af606b4d3dbaa14b5e77efe75928fe1dc127a2ffa8de3348b3c1856a429bf97e7e31c2e5bd66 0xe7c6d6958765c43ffba375a04bd382e426670abbb6a864bb97e85042e8d8c199d368118d66a10bd9bf3aaf46fec052f89ecac38f795d8d3dbf77416b89602e99af 0x1b59628750ded9f905f0d5a2b1d0c43b3dd3b9f25003fd98e9166c2d3569ab00377d1ed25978b6bb9eaf36b1d569fbb9dd85ac6f209804af2bcc84c1000149d64d8 0x1 (-0x3fc5c20782a412190d994909f277fa05a82d610af7638133f67de1b361c4285a727211a336c3c5d0e97b4c6ca545226734e8ec7e22ec04d429fb82d4c0d55cf8d8) 0x1c5f93bef97fee7bba098cb043ed0c48131fbbcfbfce6b696f2fcf668ac5d8267a52cee2d8e84fbf914424fc2760aa6b1b576cf931cc989f906c16e01c71e3e54 0x19c0b6dd60fd814b85c80f908df2724d576dafab01db5f112b4b5276da750319c9ad0231e071d259b7a63a628796ea9f4470c00db141dc6d95411ba3790cbb478e
].
