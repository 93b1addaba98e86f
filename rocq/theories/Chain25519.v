(** * Chain25519: certificate of l B = (0, 1) on edwards25519.  Written by
    /verif/tools/gen_rist.py; checked in [Rist25519]. *)
From Coq Require Import ZArith List.
From Verif Require Import EChain.
Import ListNotations.
Open Scope Z_scope.

Definition chain25519 : list estep := [
EDbl 0x36ab384c9f5a046c3d043b7d1833e7ac080d8e4515d7a45f83c5a14e2843ce0e 0x2260cdf3092329c21da25ee8c9a21f5697390f51643851560e5f46ae6af8a3c9 0x39e5a76b6f33fadbc92a232fdb1c32f2ebe39c555ccb6a7d690b8a0f82e81c67 0x51eb851eb851eb851eb851eb851eb851eb851eb851eb851eb851eb851eb851e0 0x1805ddb3491df0a9558e2ebbaa02855effa18262f5201aa14f4661759bd03579 0x8b896c140e6001ed198b5b7b564c5e7c4cea7656ac92ed1492ba58553286991 0x51eb851eb851eb851eb851eb851eb851eb851eb851eb851eb851eb851eb851e0 0x0 (-0x2b32889752bec2e0a8a2e751d76a7a91823ea8b28c85eefbcf574056192fb00a) (-0x673b9f0e7cdd2dfc5a15b445c384a987fb62dc1e0f911511473881cea5891ce);
EDbl 0x203da8db56cff1468325d4b87a3520f91a739ec193ce1547493aa657c4c9f870 0x47d0e827cb1595e1470eb88580d5716c4cf22832ea2f0ff0df38ab61ca32112f 0x287c1afeaffa90975e281217be267cae7675a2c9ef723141a36dcd19f5f58ffb 0x2852b67dd00200cfec0d4fd369a9709913833119e4038f1d230c39702a1e898 0x5a0910692d058f75a098c2e578741a5b1ac29047aece07b02ec2f67d0cac588a 0x17595c892bf0f18be9d471b7c7b000f816c7d1982a212ff41f6c7e38d8ac28cd 0x93bb69f54c6a9a716d60576d4c1211065abc3bd8827b6883f835589d512f6fd 0x1 (-0x6b00376e656d4fe9af91a4603c84dda12f93c3a939956aa5da79dae6214948c) (-0x3283f9216d3d6f32ab9d7ade925e9adae65b832325d7c6309a15a1f8b7f6e857);
EDbl 0x6742e15f97d771b642862d5cf84ecf93eb3ac67b80698b993b87fdbc08a584c8 0x21d30600c9e573796ead6f09668af38f81783cfc621ee4931e2f5ba9fc37b9b4 0x3e2294b882ff6cf687aa39e688082dd0f88dd6ad348b56ca9e0ddc3159cbe311 0x53ffb9e1dd5970330306ab6951d1af466691969fbadffb95f043173a1df1855e 0x15dd25295a5a033c7b5c7182c9c981756e03bff28654a4cb52353b08c425a24d 0x81ef2217b37f2925c8f5dfdf7dde413f4ab381d3099d5b14f65e32c83d531cb 0x284b16804bb044fa49a9b672e179ebeb3fcd9203eebbef9625be0316e820bfef 0x0 (-0x128a443e2dba4dea0968091995bf2419f7ab13027edd4a28c53639d30a842dd8) (-0x5c70f266bb08b2bfedcf79d5bafe1fb5f6f7dd05dc62cb1dd1f53ce5a99a577);
EDbl 0x23a4860627e53aeeb8e22b1508249c9109578d33e7bf237459b2596d6c28f9f8 0x709696f2827fc3729f980f2e3aad6e78b06a11ff8e079c27d87aab37c16727eb 0x485dfe61b900ce3cdf5f2b31de305abd0f7b74d75580a3bbc28097547b6075 0x6396f463d8b573996489df2bceaed1bdbc6e1bf5b6cdaf37dd93a5797f58c2ed 0x634e966576fc72cb27aa80009cd0a162ff5ea080df782e9421d124e22add6278 0x534dc5a7cfc5aa641ab5d2b54865f50fbc457f55c464433081f22ddea70ac397 0x8f02afe32fc02f212b1ed64248bf4ac19836dfae2d09f62c8b475b04e2c5fcf 0x0 (-0x1aebd4985fb65e4a841ed2ccb218d818d4438a934c4da685228276728fdcc100) (-0x575998cd451683e8010956ffd58a4804d94b51ac30d5e62c22b18c52a8b58004);
EDbl 0x39cf6c6917421af98582561d0b39567de6033190f97852fc4fdd40f6977e4f26 0x4434a90ee12cce6b7ade93ecc0f88b78b41205e74c8c4038f92d394f3a06d269 0xb1fa7d1973323e21c59fa83fb9a562b3a6784559cfba3a7126d43220545712a 0x7c235c0e106f0afcf88e7929c4e836ddff1fcbb3dd5589f88ddd2873796a2901 0x7103b43c793be71adc347ea5c94de0b2c4b8475e4059e6517b6fe5517424b7d7 0x9ecccc359ec7b754e26170737ba66be7360ae371e76e6be7c96483c4cd36cae 0x63083952dec39ecc162bdaf42ba7fd9edd50c5f54b7e5ea3f8be2d3f941c2498 0x0 (-0xba8fe3d3bb690ef053453dc9f21e34be70da0d99e27c14c23f38b5afc517b3e) (-0x3c3876856028b4239f1f1998da346801de669acc743eac1e9c912f4a027203a8);
EDbl 0x5fa64200bf829139cf290f9871d79a8b8e846fd6ad9d678f1517a0fb03ca40b 0x3d199eeaf926002872f486796fa8aa4c99f1125e6e0d196afbd695af17da0926 0x3b3d83fe110cffb7ad7eb4e5fd523fe9b3d4a2a36a7b3828cbe7d8483581c8ef 0x4998bad7de38993f11dddf94e956ad0ccb71ed8e609a3b3fdb28ed74df7cc9c 0x495c07af6cd689dc439f291351432ae718e27c357b8e6b8b31cab68f1876039a 0x1a1c0cae986fc75d34271cc0e21173153765889d16ef042a5147b5a93aed8ae9 0x2458094a0a9fdc0f08e0df5b6f6fae4a6f7051fd7d56ca9d924d18de7bcb8ba9 0x1 (-0x3a2edafec863fd2a098571ea47f684ed2837e03e96d49a562ac3ca6aa0f58e06) (-0x23048ab75ea6e502681122d7908585bfad3c49e145b1b0806ae529e5bc7f3d27);
EDbl 0x379dbeb1a97b5f082402eabf1ad28bb78a837aa426237a405da2495bf0cfdd87 0x28eb9fe001ce99d063f7995348559bfc233261c134094521fda0e7ee084b86fc 0x49adab40a19465788135cde6ce711f10888bfa22382a2770ad6893323b7f49 0x77995da0bf9e700ba9477347100a9ba1e8912945260e8e3d0789e815acf8c06d 0x774faff57efcdba630c63d79293c2a82d8089d4b03d6641596dc7f827abd4124 0x4779a1ec703f4fba41be11e13ce8ef6dd17af8f6a8989d35d6a53ac6f1f7f0 0x1d2a7098ce8f516d45a84b45b7278104bc599d11a5845c257679cd9ecdae2933 0x0 0x2e223b03712a36eea6627f152664388378925799eca4f26cda69d0cc8c600098 (-0x2624884f8e1c3d3a1eca78c00744fef95eeb54b6262b32eea178abfa1c495c26);
EDbl 0x5e7e07ed4e1decbfe6e9cbc126905449d4b578fbb561576d20b8bcdd0cc2a556 0xf55755c51f102796bf5ebaa81d3260e7d1b3d9ac127d9a80e142031566cf6c7 0x2ece15f85c62a306b78235b3e6d458c6fe7671fc0c84fba3a7b5f56fd0a74666 0x69492a15f6b354fbe618573a511d9eaefaac3c40d1d1dc054512ba014f45f671 0x3a7b141d9a50b1f52e9621866a4945e7fc35ca44c54ce0619d5cc4917e9eb00b 0x182a524795922e0dfaa6142ac21e4c2c5f6a4024e6f4f4ef228987a5ee596a97 0xd14f5a9d357cf42a0ec6a931fadcca4217b85b9195bb0d167fcd99df5136e3b 0x0 0x79c9e36e36e7806137bbc0f7ef9997f3c86fcbfd290bf203b79a25489889752 (-0x70177b58207725d9650e17131cf4d645ffed956b1c8ad213c6eb14316838a6e);
EDbl 0x2eecbf81b3d084733331f9eefa70d42621effd9b303961d25409333c82cd340a 0x54d2dc2da137827c4132d9b740a119b6484d4d4849e6e074b89cf764008b93e8 0x4eb895933704546f636d2a19d5b61c43fcae234d1d426fd3e7a2ee0f29eaac90 0x52312fe16562cffa336ef99dae9fd79e2a7d275a587ca19a8d01d6692cbbee80 0x3789a4e2e5e7b8ad001cf83d8e9bb5a2dcf040d3b3a31c6a55ee85a02d141f0 0x45c197bc266b6b22b15832fa5f3de4e395a115ae178fd4849f2ec10e880aab24 0x1d6408fed6c590e55ff5aaeb7226aa7f367b854578a4b1ec73a53e5b385f0d5 0x0 (-0x155df382c6a3657eda30e85c3cb3d64ea7ef71a97bc85f3ae9d098ff87e2af24) (-0x24cdd18fcade6b6f908bda9301b0eafc9ac4e4da84b883bac316c9e52dfffc0);
EDbl 0x6b113a52f9f3fd0590ac7cb6c8cbb37abcf147c44b2ae11d9151c7d55b4a2b68 0x1aeb017159697e792eb8da1805519c06296595f4f57996c590954359f327c13d 0x56d820c2c5c5d3ece09fd8ee4329b60e1e2a668963e6ad17dcd768f6a2ee16af 0x5e2672faf4ff4aa2651637f2c64adb88a4b9dbc6e40ded254a90c160bb8a2c3f 0x74e52382f3976b584765f048321257a868f753d8027400d6db9586a189c1590 0x1133df88860a882aedc5ff0aee81bc5d0c74720fe535ee679855ffbbcb62d7e9 0x38361c57d40ec3da33e9486ac61755d0acb3f68fc8377f5f0a482b5eac37e3e5 0x0 (-0x3814e127c7edbee7909d8528c239408804a0f27326756069b86677622d959620) (-0x189529371a1e0377a61dfc32b189e892b44ced54e533529e4901dda87062254);
EDbl 0x3c1ae7527612d38bb541f511fcc6283d8482afe93115b345ecd2bcfbbd1317f7 0x51c91c3f9d7e57eb786116c8545f90fa67f5e8b62c32ac4512015a20711364e 0x6e35dbb2bec3fff0574a2fe2c74b68773f4cba5da9fb47b2d73dd0de6f4ffdad 0x8c3f216e97083eecadc8dd089341ff708b7ec45890804823d24b1152f37d623 0x1a8e16642aac83fe73925dedc1e8b77fc96b31e7df0cbccf65e6e036bfe7d863 0x598ecfd45281b823c95d1e0eb26fba9f395f015ed311f88a970d0e9a635bfe7f 0x5a9280d588b548362a4e4de74e6decf9cb097e9d2836dcb197e8574785b333e 0x1 (-0x208ff604bada1770ba69d479021d28b9179e42cb825137f2f26d8b71e6e50fd7) (-0x10f7a326d3cd9aa35c7ce1d15899ec8c2b4a3250368afc3fa728fa44324fd16);
EDbl 0x7d13c0248b891b47eb524f2692008e2f97b199bac426cb5902b9003a29ded6ea 0x59a976ab2c01a81a91f1a56c75ccc77a9e1e9e878e9fe9c3952080a6805b20d5 0x79976fdcc78e3d0cee623e1a258705a41ec0b435921c68f2a89770bd6cf30cae 0x319d2410961e3b748841be25ba578a9f54ff8ec289763cd2867f05bb7525f682 0x3805b433ce8ffe6799df800b94d084fb363eda8cf759d3dfdde794fe0832e9c1 0x1c393e84ea3d754493457e952c732a19535aa08a3223c9a230445722bea23fcf 0x3441c3bb415a7c97347eee9908c2f595d590d93eedd586d529defe7861f20a 0x1 0x31f1482f3e63ae8bc456266a021808ff037f5e0e07a2a98e104fd246ce0340be (-0x273e22c41f080834f5a1dfde1072979a363f48e7e198a4e0d8eb0511c13baa27);
EDbl 0x17d5a9ff7f338d8ee53c26531f9a5d4ad2718234b5d46a1435aa161031b1c9de 0x73022287d3b73f6c43c3f9071cf0a87aac83dabd44efad1de010d564a4f6af89 0x6ec962ba83db89f66d6bc7f3006b1680e7cd0a7d62d8b565af7da35eaea99814 0x369b801d265e03076625cb921b2ec6bf66347fd1a2b78f0e3562664b6320c6b9 0x47d21d62a2827910f8ba039f1ac3b03e7e6775543fded9a885e4c2ecb4772e92 0x7a3896538bcee306f80a138ebf37a95ba244ecc5b60bcbafcfa7f42203cf7310 0x3ece8961d337002f8a9cb3cee263fb40fc18f9125cf075859717c44087218480 0x1 (-0xa1db02f5bd7ca999d492c0f4c55ecb4da7d77b573402b33629ebaaf71b8626e8) (-0x4087f90f19c0226df62be6a643d9658f46e293f9fbf2d2289bb051c5f10303b1);
EDbl 0x7a8bc68bf5f3ed3bed79c11bf2d6b20cb84442dfe4ae185b0c2dabc38e74b8a 0x7249d7c47afd427018b32d20a2a81307bddc3e039574c80329aa786a22288901 0x34999d67fa2173fd44137d36b87b392b8965ab66d5e3686fd569f6ee0a883043 0x3506450debca8f62e54b43a64b1d850f55870817bf64c4234049a2190cd04745 0x6ca7a5f1a91b65a137c66f92a24be3cc215cb0e9815bb36adfab2b02481702 0x4702dc079d08853eb92464c962c5275236b75f8ec97c4f8e50d872e39cf0b25 0x6755d6152dfc9c4bd390b968064f3449826e9c66e411a00d761b72ddab0216bc 0x0 (-0x2ace3899743cc74858d3ddd8966685e23e1f6ba09329e71b47ebd91fd613cfa8) (-0x6103fe904047a2287056a89f979ba5247d4efd31dbee3b7dbee897c66ca7a8);
EDbl 0x5b4fd9f4a9a79b1f34a4c426c1a467d36560338b1a5457e83254935c2b32ff02 0x40ebd1230468fbf85a49aa47278ec1375a3cf9c2ecc5bbdf685b265433b08d46 0x1baf06b703786b550b0fcf1de265c8e40c1e6257266d5623016577c5c89d37d3 0x48e228bddbce187042ffc18a9e603be12a941b4f16acbbe8ecf37805c289c56e 0x2d332206d855ad1b37eff26cbbfa72fd1e75b8f7f03f65c5eb8e003ff9ec8d9b 0x75530b1d38ccc3f6272a1a6701ca56ac4baf2226cbbb1b38cd216ca1a56cb5 0x660bb2ef82e6a1fb5cd41ac59ffbedf2e19d587aeb970ca398cadb637e92ee7f 0x0 0x129126d31a52cdcb6a761548527499337cad28dcd4cfaa9fce4601fe284b916a (-0x16ecd6bdbfd52a8a4c04363c6fe975f1679c4fa2b9cf2b8cae19745e86bc7993);
EDbl 0x5de7faa2ee4e70132f541f79ca07cd54a39fe1347a6844d19e9d678a8411a565 0x2c9f23641e1c2e0aab8ea9926b432d92c0e8bc08901d6ff6df85e4cef854ec36 0x645ac681bbb529f6494c129c2092d653c2201d0721097ca47a53f3eaf5fb77e4 0x69dc309e0a6366523f7ebab158ccaaeadd54923ddc8315326babf42adc1549f8 0x5816a1c4eae3c5bf632a8153839d4971b347536bb79988df158003fe619d214 0x4123bbb85e5d1e57d331e8d680da15e53ce584167e4dee2a5a53b1d2ee45d0a0 0x20ed839646b19170ce9ce9493e66b3cccd9297603f538bfeab8fb7cc8c4f1c5c 0x0 (-0x58964c1ddc35547ae5c9c8a919d72bd5d13a27617862237536cef7ce3c050184) (-0x1eb54c13b9fcff883bf133c7f2fdd818fb4db6853892a4ae6882fc813d68b48);
EDbl 0x74e337a01c13b537323663602811d1d532d8747e81489415271411b172d04f27 0x8648f02b3a4daf96ecffabdbaf3599fb2ee85dae253b2c21ce66796114e25f1 0x17d23b83c361b9a5f4ef14b41ce049d1bf20cd3e0909a2370157767f6b038704 0x47832d014d6fe90e1816e24957b018ab48bc7c9a180aedad4bed6291e06b0965 0x2fb0f17d8a0e2f682327cd953acfced9899baf5c0f014b764a95ec1275678261 0x44e4bca15123603fbe0793a74e900d44925efae938ebc1e8c4e7e09f5cabb189 0xf8e2e2ecb373c7034bf4d493acb4bc3838cad13d4d19f64858d7e9f7100641b 0x0 (-0x15ebf930bb2d3c621974c772b08a0762b1edf36d8dad6dd613173f8364be9189) (-0x320869d3231a23ecf6ee3c2bfba292bab5ee3a07274a49867c4aefc5362d738);
EDbl 0x6a6fbd51efa6a855e82cb0142325ba473fd7554aba208a400737475464f29434 0x16f5f8529f55fc2b7cf811161d7870ade1d1617e52c3c4f579ea06b27616d671 0x3194d8301e554709da79e270375ed204c8b0903cb660350ee6f5501d17fb765b 0x5fc535ffc6b1f29c359f84c1e923eec1c71bcbf05ed84736187e11142d5c28ec 0x2e305dcfa85cab925b25a251b1c51cbcfe6b3bb3a87812273188c0f71560b291 0x6abd682996f3aec1f1f1c87bf9f663c8c6c8155f4825e09e439f141d746d992e 0x8ce0e06a75566846233877e24778d8b0014c54a4bcceb394a3e7c6e56a2329 0x0 0x171450c6bff0c6266a596a2e97624bc6f94e1d246171b63e13728e1d0efebf5e (-0x849124ec6a5b9be1ea808ee1bb18f4ac50e23c0eae084f7b4b80d41102e1b3e);
EDbl 0x243eb188de73a5549b32c39d2ef1b29623709a9ead4c0e240314e0c5f69a9634 0x3779298951f452d801eb7a0b7eb224cca2dbef041081cfa582afb25b1f4ce2f6 0x35eb43862958c87ca01b25bc62032a34ff17b8b7ec102711904411a48822199 0x41d99d1e172aa60f386ca68175bddd85dbacd15430d251078acb5f02c240f816 0x3e7ae8e5b49519876e6af425af9daae28bbb55c8b2114e9671c71de879bed67d 0x5881731b270bd8057644a51ed8e893ce31565bd2580dcde8ed5724e9887127f3 0x41e6606e4cfe29a671b1fb947db5d146cc2058a0fb672a62b0c919628ccd597 0x0 (-0x147e4e1d1e87415e367a8f72f4416742d8ef224a4be7066da6a3910a2317d814) (-0x1b13f48942e4a9badcedb3122f48c0a7744828328ca504ad0fb7c1d30c792b45);
EDbl 0x6b349eebfed4dad4a805b63a6ed2231a565cda752d9477ff427dd9a8c9ab5ed 0x7a09289ff3e1f9aab68aa374c48df65f550c2323607b97744dee990608b64f8 0x7cb253839e5374270fdccb02b6f568805cde5e98e0e21c1a5b19d0fe2f34aa91 0x45c90edcf2ddcfc98ee15c1ada6ee27e44bbed3f440adc015a32b6919d847e9f 0x4916bb59548a5ba27f049118237979fde7dd8ea66328bfe6ff18e5936e4fd3fb 0xa436291eff5a699ced9c6317f77203db14a241adfe5869667670ff1bf2f5a1b 0x180a9262978774f06a96c0e90470c566cb114592cd0490b351253d592f10b239 0x1 (-0x1b970dd5bab1f4bf9e113a4d8a204f2fb8e8d0e5357164e908c38dc24ca9bfb5) (-0x45aee55cc0e6a4a42f633ea8093d16f0ff3023f127dea394124b9b79d6b0308);
EDbl 0x482a4cdf57d9eadaab1c92b8edd4d15f66a39c16b2ebaaf9ec314ac0199c4f7d 0x7391de4381c2f7a80b3c5fc6145192983f115fa525e4fd6abd513b116e4eb04b 0x325f52665de0c9ca80d6516c853dfbd4ae86c12c7a5a1177c58f905271e2c5aa 0x7a073c364ca5b6f116c7cfc9aaace6c065c57f0cb51d39179e3791dcc5784710 0x47a7e9cfeec4ed2695f17e5d256eeaebb73ebde03ac3279fd8a8018a53958166 0x59ca0f54731b3b0682d8bb6720fbb956ad9e0fa21037ce6b77adee849a68db 0x74597618ac49d0037a1a782f89ec8874b3881b171e2c5054444ccd42f707f0 0x0 0x2799b600040a80de412d8a232c1ab4496d3be9c8d78e7c40da5ccf68e2d9bc56 (-0x40b284b4b21ecbdfdc7494e6d90adc2540bf6f1d348d5b885da8506c44f82c5e);
EDbl 0x3bad86defe0d244dcc4b246c137dcc68bf6b733d1fff688f33431f2a339f8f3c 0x2de3cdf2fa86ba8c2b899f9fc04b8d5384145c3f68ea9b6ee05373dc01815179 0x5592cfaf77991df1beb2728dcc465a44231a1dbfa7ce18126493047a35615468 0xfa976737cbb2e008f23e8a6d037104f539688452aba1fd46a5762392f912f3 0x2b67c7b7c03294ee4a3fcbfca0bd16c0d21f4ac4aadd89eae21271a95d97be78 0x28afa475e3918d3f3e7e1b2fb7a651833918395aa9955bfa0975c4f2acc16b05 0x6858c19c600ea071b3a03fed63e71e19fea20b6f3d932d5ae3429e726141925e 0x1 (-0x6e13ce8770f4ae9ce847e8fa97ce78368777eeb89a8a604c0d32f719d91353d6) (-0xf8fbc196476e54295164caebd819f98123d8188a1e2dfd0e67b83a314a46185);
EDbl 0x45afc85dc571ed1bd5e8115a9622d44627cf19fc4a8626e7b754b005cb75be54 0x6c0c8abfa60bfc771e39a18f57b8142f7adbcf220b81ee2339809e4957777b40 0x4759d757a5d2a58d25ccf02561810937f0379bcf7af20adef216dbcc8e934b65 0x2f12cd44e18d7d107bea0efc17dc6a80015ea98f7bea435983be62f9d9434d8a 0x67b8f5ed3bbad783561d1ed6b65b614811270dc000f8387a91a7872d4ab00212 0x1bd2e394b317416494767bba3be8f233c4385ed17b2ccfe23bdaa69c2dfeb1f7 0x1073c23c9d5568bcfd18645b20ef2b0e9cdaedb6942b008d96693b009d8bf963 0x1 0xdadb77589dcac095e894d2a9b5b8007600efd12c8ef5e9b25ae8cad976411f0 (-0x578e3945ee5391290c9702301658350baf32c162eb1a4ee0bb13610ca124cccb);
EDbl 0xaf367956af630266b1cc760154256ed79da960dddca9d72a1e8cf27d8d43a77 0x21108d900134d3b3708dd28ace96b0b23dda9100e4b6a62a8131bd2f2ba408c5 0x160c1ca59272ea6f148b4c02bb6ea8a3f320b1ebc1537c2d7848f69c6fc75cc9 0x37b3b91d4ed80071ba02466a75c097814ad2a6022ee2b0a1dc3105928cd3c746 0x21a79c77bc651602a576fa67ba51eedd57b1f4166d8f347463e80ef61d0c6a7d 0x25f0756c32ec04dc79cfb56d33d17e3d926ee43f8dee2ba5f27b5f7031c34b03 0x5b352b5e0289b94494e4500ef416745353b50af551b45a4dfaf2e9222b941062 0x0 (-0x72c5327ef50ad8ea6053bda1e9b226619bc5861cdf52e51c19b758361bb6a0d9) (-0x8b19082ecc6bb84b4fc7ed0eb2c27fdc1205c343cc5ced09e5790f3cf756cce);
EDbl 0x2b760154fc5ceb5a64141345f55b1b57e5b0b1d6c5a07dea8ddf074fbae70d33 0x7dc81af96fed42e0373411203fa2ced7629fb2eb6a2054e24afe3696afc20c02 0xff230b0f6ce7043e110a2f64d7818ef6ad9438d09cf0bbc6541f08e32e422f 0x22d3fcc9f768c0cf3cd645be9c4da1979fce3f073308daf2b9678205483b224c 0x21d4d9bee7fbd9cafec53b8f37762008a920aace626bea36f31362fc650ce01d 0xefd70af7dbbcd466a2b7807b3220126fd58e224906d0d36d91366e2afc6d6a 0x88a8b22412f6f088c2bd4d615dd1d62e28fead47cd5fd224b04fe81c84a6ee1 0x0 0x5d45b3d296db07da21180264056824fb7a5059a6ed29427435822b3764c0405 (-0x213ec059d2b6134eb6263e6cffbb94d497c6d16de23da74aaff999570f804b55);
EDbl 0x67dbc33418bbcd3878489398639484b6d6fa42f875b8c5af23bc92c69c5bdb6b 0x38436fdf8589a33059fc92e7ca7aa2250cc9ea48391b1e517c6fb056093af396 0x49fad9b5fa7ef4d85c09933629c9cc50bcfb7dcdbe823237924abc16cb37e775 0x73ccf57899d9c7c92ed3caf58cfbcff227a64cc025da8b85e2ed60aa0192acc5 0x29d21bc29f5ad2f0d2ca37bf633203a16aaacef26758594e50a2a493365ac550 0xec1b5af8e4345d14916745221390a0ed84a4368bade08fe0bc589f1268d7504 0x7b9a0d837fc8679d24a0b2b31794104720a6669747ed022a58f0305bd886725b 0x0 (-0x337b7e16433159c01b8cca82686d0022485b645caed80a65ce30e3161a36424c) (-0x1261f4ace957922174dcefd84aa503d75667d3765ff96be1eb28f6aafc9517e6);
EDbl 0x29ea44a50a4b47b8b3dffa01dc5f2271d5439ba8a82a6ec0c454e9bd19448479 0x6c775ac8ab2eda8cbbdb4bd1196ab24630ac6c1f97389de19e9d5f63af509005 0x7d10a47a8494c0496902dc7b6cf833c78e2a8027b440992893f6ce716b2a702a 0xd67420b689a0cde3afac166d517be647659debf2c97cdd562be537ecb9169ba 0x10569d90e4054c94d1f7e4eb681f8a9ce82f5e97785734accec7850d6066f97d 0x54452776f7c3b1797176b2c14185a6a0609379a1d94aa1f994ae61ec7d1b60eb 0x18bb256b149f6ccfb34848a0d53be27b8a4b4754ed2243104b25a4a1d7261192 0x1 (-0x55f414d64695c728c32e9552e219e0e0b52c8a2555bc476195608d801533b0ab) (-0xdd8510f411239c8716752e1493b0cfcc95b412446e29bba66e029cdf1a83717);
EDbl 0x1e45a60140a3b2dee9b8dc6ff307154a1b410bcd38e0e38fb10b2f6da1afbe2b 0xe730da473dffd60d2f3241a85e68acb47d26e5043ad047d893f072c8dda0a76 0x71f16656ee27156486ba10507ea0b0afb95945ce81b52d2909888972a6c7269 0x71121804ef11ec75d0fca60b3eef5ef6202d4f9afc75478f4ceb2ccaec36aed5 0x69f3019f802f7b1f88910506370553eb2497bb3e1459f4bcbc52a433c1ca3c6c 0xdb9c0bcdad60ced15aa3ddc0fcaf073f55cb8d451a98bace92d972492b720e8 0x5be9d87dae60c73d955f7cbfd3d7373790a2f114349edc978f220b317600e5d4 0x0 (-0x2dfae41a8f714de4ed14d9d072e9d3754a9855f57c64f2ceaa018ef822c0ca2e) (-0xbf5cfcbb4c05e0db7b9e952c847bc135225cf8db9728f12dc16853c5c654f42);
EDbl 0x61708161cb4660ff22c3c1eaafb1414244579864b07e73fb9bcd90aabec9935d 0x38d6936d12e8157c0621bd2d8fdf95a1f84987ee724e0c98f5c4cd21feb9820d 0x59a1595beb26eccc6c8b5891a6f0e7c966ebd22ea89066928725e7b33eb6686f 0x39352b5b5bd619e34535cc67c51d0c391d889c85cf203725ab6e5fa2858da747 0x5f93d1ff70af2d16d8aa73d61e2c246fb69cca57268fd093244877ef46d73ec5 0x728cbb666f1ac011108208eb8acc337c53e8497e593556044d58f89fac580b2 0x1a192667e4d70bb4e7733016d51e700380b77ddcec26726e82b7ed568021df1 0x1 0x41ec5f2cd2f436772c3bd89130308369a65807f1f4108716b245be7cccda2501 (-0x2a70e5180d874d07eb01c8f0d6f2c2f95175b70c5353dad4e3dc0f22d0d7c671);
EDbl 0x48f451397792915909604c632c838021641749a67fb8e91301427defd951f791 0x315385d3bd5a22b69068de89e52a3126525be7da886d693e99ff2f088322d560 0x280980b3b7c6b4ac580e7dadeda6eb3f85c66889dc46187db4b8e72528fb899d 0x4bfc124a970b0182e9aaf63a7ed6c08c74eaf262f00fa037b107621fe40ae0b0 0x23f29196df444cd6919c788c912fd54cef2489d913c987b9fc4e7afabb0f5713 0x4a2ce6fb2601ce9da42c2f99f35eb0d0e1fd10559333560455b05aa3ea1c815c 0x193d28b50f0f2f33a37a66812522704a2cae85a3ea9d3b1f4f8e3b2c26b1aabd 0x0 (-0x420c12c0a1843dd7c1c81ace422a77cb6507cfc607bb6d1e8de76594e2022b8b) (-0xdda509bab9d29abd12f314a7f90758a45f86cb580d907313cb02e6b0a72d4c1);
EDbl 0x7956a04df862178ee4c705ffbd30f9dcbccdfc7abe362f2c1da24b3cf9dcced8 0x5eeac17f2e772f551e761978b395b6ddea37a16aa33cff34a30a8453baf6e782 0x1ef5639019a83b8ed0e956f4a8edeaa5de78c987777d1470790505c002b1b67a 0x458eba2c60c48e312ebff828d217a864b0a822be87448886a75785d5fb79dcc5 0x2699569c471c52a25dd6a1342929bdbed22f59370fc774162e528015f8c8264b 0x2994adb685279770bc316652cc379b0c03dcf83da478155b455044caed071563 0x130228f6377df73b78bdd65c331884f778081b304e7ccfbe9bea54757e1caec7 0x0 (-0x13a33059509211f65e2a9e26e5b7774dedbc05d5670c1e03779d547703bf2458) (-0x1c9f6646a8a96ab23818b69958fcdbdb45f9b1a0136f9a6e948436861e2f1c75);
EDbl 0x4d1e116d136158c5ddabd4276832800f2c081c1072de6f2d931797a46abc0cbb 0x6d415be49d4e35b65cc51354b5008f8c43e84b7b5e8a4b84f44e1efb10c9b91a 0x72cc3388fb545cadfe5a24a61b038af036c42d019046ef9fdb1f708047591068 0x5ba5af61177d6b8ab959c0a1e0bf5ffd712eeabbcee06e4dacd7a272fdda0669 0x68d97bd81c290edcbaff9bfbc5bbd50d3a6abdba3e997eadd1b831f2b680f5ee 0x730601b39b2254cdc371ad1a2d70e49c0a82892c812064be4c7b9cc24fd73238 0x46627abf69c2f7c7c4118afa41e949edb83dee0ee0b485a459a5aba9e99cf4a7 0x1 (-0x74c8d947ba3032c893a308671084669ce98aa9fe254a0d12b757c7af33e2e3de) (-0x597ebd2cce0452e6d5c4de82dd0f66ce5b717e526dca522d9e5f8b21a3e0dccd);
EDbl 0x4b5bae5a77a867ddbee3944524f8e2ec8c2a6172c14bd432cd42148248127d15 0x739476e0b38471219875a4580e6742ecb6aecba57b8c0fa0d923b8de209a77cb 0x76897b61ddddb32db600498c4f227933f0ec6bd69403a1a6f3875fb02a73e17a 0x17c01d8f7d6609f5fd9186e08e06894d963061791503f9b6defc69bf0b337205 0x2136a22d9f8856c847913d543ee41019a543f5a28100580feb750a0ee0bf9078 0x2e76340768d18a888bc1940d9019a29c7f48e97d27812ed76da80299d24591bb 0x5d4171e0f2119ee57f868e33843ca46cef26ff8c7f0a2c42e93721d32314ad3b 0x1 (-0x701829d5eb64ce28bb001b4cedc2d721d119e1b7402ce793decb5317a2496634) (-0x1dfd9bb92dc79703256e693a113d26704b64f5b4618388f35b850131778adb35);
EDbl 0x33bfa90cc1b9df13e106ffcf6ca898d06b22d51df337243bf85b3f232869fcdf 0x53b120db6327cae59fa5fff109017d2df4acef01d2f10981439d824fb2da81d9 0x2e28776f5af3cb380926bb284e54082297948004b75794cf150726339e1f2d49 0xffe399c38c683f28637656a035c194f0cec48d35f006e414c770b832541749 0x52d76c2a68989d071f3cbb2e51e1b972593a44887e987214ffc04a849434e9ed 0x2c5db1fcda59b26e1a0f0ad84e155602d2f37e82ef2dd1893307eacc866c8230 0x685d71cf1898f2ff778acf7c77f53e172ec9c4e430b2d2da736bf0eba30dfc70 0x1 (-0x6699ad526298961518d512f380d7a349785f2cf3fbc2008a4096e0a81a16d9e7) (-0x362a534aea41a22d33b865f01888bfbbdf97a955ee7805ac787f7825983f6c39);
EDbl 0x444929347c2ded029bc19558b0f69a4492017a9c35b370711e08222bc0b9efc6 0x77785ec5cbbdabd645a3251e7da57c8ffc39158c0d7b25a4211c2aff2e1d6245 0x792201851eb4334af1fdaf8a98951e09fda4c9a9ae1a43da4edce41b6258befd 0x546e4e7d82224a31d396c75fcfac5a906f6dd76dd61af7156405538797da7754 0x5b4c4cf8636e16e6e19917d537173c8671c90dc42800b33b15286f6c3581b844 0x14ebd9b18bb5f54ddfc3094db3452d936aca4fd91d3bd1f34672901e03e027d4 0x36b8abb96bc4fec86c8582cfd2cb94a421cfe0620c575f0cc6a3e7d12e208771 0x1 (-0x12f710119059a011b8395c7500ca9893170b22822663ddbed55c4f77b66e228e) (-0x5536cab03294bb1a56f40ccf353b7fc3c511823c9e7611599f28d20fbf76e327);
EDbl 0x2b6b892ae94b454b2c2d92bb947fc4d506d173d281779c2c153c001ded42d3d0 0x7f1cf64e0e180fc4d6e12c1b5c5285f376e979616a52c94a0dea4d48c5880cd2 0x55b51b3ff20861904ff44a83b032309677c0b9216d1885d5d1c650af5084d2df 0xaa7afc7d550451da587a72d4eb54f66cc28f38358e46cb88c7489fbbe2d80f3 0x34f29487e347e38d55935ca99e831ed054683a61ebcbe6e2baae394c6da8ae01 0x246de598d1122547e616a112909e44ede664ae0d4f5b7d9b9e021771fe83a8b9 0x6f824169bfde640997c246da43d55c925272322d524b7bbd6803a9262f9f4b7e 0x1 (-0x6d827d7e25638d47ba052eb331c650f3f8ad959ebd23ec0d9e614c1145d8631c) (-0x3494aa51d057335d3b09c4d37a22a0a2cb70e5ca49f3e9fdebdbd5c048f6af00);
EDbl 0x1b9175b7fc19a618d5848c5761c2b760529e3eaaac087b51112b1fcb422e04b4 0x1730a59fff4717e258cc853dece7c5f70ecb52cc35320a53cc3838c844ca68e8 0x414f4e4e2fd483888ef8e3eca2e6bf08645709617ea1d430fcb7b8f6c5242e19 0x727e13dc4f5c1426b2e6e3bb76a3759b37137ade6828b89a49b5200671cf48ee 0x312ec58e1f87909e23edffced3bcb692d2bc717ce986e4694cfd670facab1ad5 0xeba9a80bb7a862e3e4b1336ebd4da38fd3a11bcaee78b1c86385d6124fb23a3 0x7e3b7f5080121f972c01efd9f5e63946390b0612ee3b75fb78e6fed5c4f319ee 0x0 (-0x4ba548743d9cca81f1723283960a33d3a2b8e266fb1939d5c0965a6b0f1445ec) (-0x8e918ad63cf48b2a86c616ec46a136dd5a35642db124b936e528e826622f95b);
EDbl 0x1371cf67fe47f8ef91246ae0485874d601e31984d854224569ac29e56a6ee87 0x71cad7d8350661ce798e332a98ee5b62f8431fd9ac5a4a48856ce9c4c5b64c73 0x56ea7153b02effa288d6405f4db09e2cd4f77999c368b1fcbc2aacb46c6435a3 0x2eddde323ac49b8892bdc801e0644f75d983a9dc8aef44326ac465fb3b21872b 0x57f36cde8a959be609e787a292b3b149048c3042c7869235ae99b946cebd5175 0x5f002f6bf755d8277d904012cbe6a17be0a3430fd578e22d8a7fe2234d26d01 0x4338e028e0c4808bcfc67307091f389391e79deaf51102bb8085bfc1e6c02c9 0x1 (-0x927756533301ddf06694284666e7a6bf2567d1f6f46e5fec36bdc8b32be8621) (-0x4e304693b59f79bddbb39ecf8ea011dbf282da4aec645df3d5c9d75bc8578073);
EDbl 0x63bd671eca1e6accd0f980845b163ca4e927d2a74d198e78cccd8fcaa6aed372 0x460cc32f5d27a15f4294faa20a99112392cdbdc8515e9caa1ff4887d22a6e7b 0x5629ea59d527ae61eaa38b8c14113bce2c8b469f256f02d281c448572631ed97 0x2920108de5df8a86faeac366a48ecaf706347b854272cd3a51ab6eacddc2e007 0x52f6263410b7dc25104737da907d8f28d9a934e61d03ca67cfe72655b790f25d 0x2f42ec4632d03e8a4345b757fb3092ed1530b4a8e14c33271b807e8419cc2 0x6529668c6c006029be61bdad1b08b82f5b7f71c269931ef47b238629d8b4c1ea 0x1 0x3e7bfaa6d11b359ab62e2ba0c9a9cd81e24ab8ec0d2ee00cb55b1f2d4c1b77a0 (-0x2d66e279befbfd8ff72bc605b71103aaf8bbbbb0d5bf5786052c4f7372cedd3);
EDbl 0xf6c3a96e0032a9394337a02ffb2c83ba70efb8f566feab530fc90fa3b4710e5 0x3d4e97e286378675038a4b58e84224ee515e1d6697ac79389f78479be167635a 0x6fa822de524ae113d4286ac1c0b2ab4855efe66a3b246d6bbc5c238eab002579 0xd89f51837940da072167f08f71d939a707b115a74c5dccf9ada2b6490c503bb 0x1de1d239e5492c8c9dee1447366ae8521a8b2af039a16f63de7e07d5e5c4de2f 0x4db813c67aa783b92966cc40a03e988b568a7e97078c885d4bbe6a6c5a638717 0x2655f6c190673149df43d1a69946281c384864cce59ff18ec1ba2d7db90116 0x1 (-0x338f5ee08ac4d46a3d9f08b453ec538385d6850674fef681cd0f14fd06a9b65) (-0xe4ff740fa997107faefb6579d550f5e1313b3779dc6d3e09e2f9e3985941f5e);
EDbl 0x3b13c71c2a90bd24c51df6bd138c5d16208a9ceaaa8eb34a69469fade6abb440 0x14890a7ab24817b2bba826792e8fd342a6f705af800252616435be180d16dc54 0x177e374110f31cd42e4ebc3dc5e6c002ec48202e0f9f0198501a71eb80cb9822 0x5ae7835013d6c48eed70192b3914cd9b98b526b6befafca156e73aec5e6f421 0x6e3040f3f04a4f74c0884554edaa8cd6cd43323d5c50ae31c55401c3451b5bec 0x1dbb93e55ec302bddd2c4c12bfeb43e4147d630a4c5d2f5dceed76da9672ab3 0x1d5d1905b83a8560e8075b86750ff4bd4e149c339baaeca36cc07d9849bb972f 0x1 0x24152c2832feed2f9b7cbea05427ef115ee3ae4fa23cfaf10fc38c1dfdbf446c (-0x11ad82d1072ced1869c41f0c768feebeb2af4a82a4e16fa955e344aee1bfb1d7);
EDbl 0x184b48cb455000542259174da9a6eb83a928b2835182278abb6ec091e388a820 0x3ee0e07a03dc33a9dd60c2682380ef736679a5e383faf453fe324dba26e77c33 0x4a718a9afcdc601e92fa4a68d43d168ed51f31ad4ab63309cbbd06e083086a1c 0x14b726879a4fa07aa145e19aa9326292101f68d88be6a24de0bc87e3ed0beca8 0x4a459bec9d73405c0e4b9731d4f54c033b00372b41306f4414ff81036a038279 0x1b443e9c4953abe2c63ad925c20cdd00d2ba7c2b49eb289c69d67847bf8198f4 0x34b65fec737cb32aab00483ffe2e15c0878dc273c76418b9cbbf53f9ec9dd88 0x1 (-0x4dbf1f88a7daa033ba783d893f112e6fe40d64e3aa309123ebb26e0cc9fc260) (-0x247c339817cb7532d15bdd3c9e2708983b74ab653c983c52ba54a602cee0513d);
EDbl 0x5a04ae1195edf508262196e9d23c259c937f81769b2258542b78e3c0fb135c34 0x676667092118acccece87e75f0a6825c5952f92dd499943efe831f9712c5e8b9 0x2e920fd9b79bb5c23a75b3e6fce4f199214bb10f45a25c72dd26256c72043f5 0x761c1ce779eefa74bfb69d415b9227bc70f45145e0a72114df8d2101eade3b3d 0x7332fbe9de753f189c0f4202ebc3d8a2dedf9634ec4cfb4db1babeab23bdf748 0x49c6793b1992aa7ef21cd00b9a1e4e93e42d16f76c5690a7ee654c9d71710d7 0x1ee364896876569371af5edb9ae4019327f9b34b838247991f9ca782cf80fd1c 0x0 0x3925c427ef86d972c74608e925e57529ff9ac4d686f048ac8c36633ba82c1960 (-0x5d0f30122d74dfae8a63cf2e97f0987ece7d93d175c02194b519059088403ae8);
EDbl 0x52ee53b981dfbc41ddaa5ddc2754c4175f4811aa45f8e2b19a425657c238a83e 0x7eb0a1be3400dec87b388cad51613957643cdf0595b891cc6f925fb36da7f1c3 0x61fe5a675d27dba2e9f17a18e1413b75d39ad3be3563fe0fb7b2eceb6861b693 0x51e92d79aa1f8cff9b0d22d2062120338953fe0715121b548144dcf6633a014a 0x6fead3124cf7b15cb11ba8b924dfe4bdb5b92a48dfae1d44c991f00afad84aa4 0x3f4e94f488a7d17c3b2294fde17e1c8e8408b3606573caa2a052cfedd27f6251 0x53871fbf3ac127579a00960237c3d8381fe1faf5dd89c4b81cc65f86a6ae5323 0x1 (-0x48ecbf797184cef328ae08e41e9d560095b347be5a2e08bacca1a34e017abf30) (-0x6ec59813e87423aeea8bdf2dc0182425a7f0846bc956daa80f15942e9fab19ef);
EDbl 0x501fe138924e05cc1a05129d241e6b5e9d46cd8b0bed38eb42ee20678a1d2425 0x2f8022ecede0189c215882ca856dae0f7b4daf6675181a558ebd11e6911cee4e 0x58097258440a3763984d603b243cf22f156251f7ab15620e9c04e154eae5d45 0x2fb66321847d270b17350558cbc15b48d0c54db976d16370a566a9016b416d45 0x2a35cbfc003c8394ddb02f55197d8c25df6f2899fc200d4fbba65aec1c931000 0x35bb17053f0542808f9ab2349c7511b2a750ea5ddb1c9f60d677b43b6fd76adb 0x7d64b22c0dd24e7402109ea48e7b6f3e6bfc27ea5eb525ce23249997afd131d4 0x0 (-0x89bdf30757d8712073380606bf54766030aab9e633e3f177dac79c1d17c3cdc4) (-0xfaa0236efe6ff77e509e65448a998427a12f4ad1c05896e3319bed861667be6);
EDbl 0x2d8294fd94996032b73b4f09a0ff645ce8db39db5463f0fc57156a1d390a3b68 0x3a8a6faa67c6dd905a4fdeb95ac127c9fde3ac017c847ceadb2c55f1445af624 0x69c22caf41616d2c1772f81db78449be4f9dbdf0ca5184e651dcc4f635ac2197 0x2dc5be2dcc8718e606fbb1fbba07a7e25247f8db6b7b266fc824b3635bb9e6a9 0x4403917e8b25abb9ef88b9de02835e2402aa3aeaa129a1897647ee6d260dc4ff 0x3227e1775a916064e743bc92b782c18d5756586b67edf3c6a600e519a32aee8a 0x11a099ebe213e731d23ec5fc9d910df002d5838baedf10faddd8a66be518ac27 0x1 (-0x234930f06beafdcb65b4018fdfbbb3b44dc6201434776714750952752792d744) (-0x1f1b2d1bd788997c9ee03035fa2ba82eb74248a2c58302d1239a087e8c05bea4);
EDbl 0x56857d02674276af0099d63b04a39544a23b841cb2ef18688ba9500361e4da1d 0xb543a6720e318d2647915bcd619efcdedcf7fed0657be45d27db284290e72ce 0x3a64efc7b8b22410706c558cbd3294724901e5f794e47c55d556862a5cb15549 0x74f4b13508dbf97068c1344728e73852392beb1564131f6afb4d563d2a035aa5 0x3a8fc16d5029d55ff854deba6bb4a3dff02a051dcf2ea31525f6d012cd52055c 0x102e55f99cfe0d2fd922da7e5740a73494a618e171f79442c979f7aba67653f3 0x1ac60aeb96e66c7175c143adebd0de7f87bb1ec3f49a94c273e48099440088b7 0x0 (-0x20b1f78ceaf47a0243d7bcdcc9919cb2e4020c74a006bb2884077907966a6a4) (-0x52ee3aea6ff38bb4ea79d72768648c6b27fe32526dd6bceca1081c079940c82);
EDbl 0x52a837bc7a7bc9459bcc2ecf80f74d9ed99def0342e18cfbe8e799fbc504fd52 0x50d6460185d8924e5485f23f36a98c86053514d163547adab6fe91478a411196 0x60009b64407e36a996696b94ed627a2c1f427418c4bd9b8145cb6f83027986ac 0x4bc251890346b73d32da33b95da406440587bb57906d19b8fbb69061de5c6927 0x6bc1b624c2c880939c70c82470418c17e645473ecbaf7e37b5eb20dedbe2e268 0x3a7beb317dd6975329aa93b973973739413f33f4a5ffa29da620280cefbc6d71 0x100b1767ba7fb3981d66ba3ac80bd091f607d9359a5c477d012f37e0f2d1171 0x1 0x3644e635a3702fcd1116d62c6005b6c2c5d45f99efe8e81a9151016bc08280b4 (-0x440d74a2b70017b2d9d39b9edda59d758f115731333021707ee5dad75ae8fb13);
EDbl 0x3f30ee695b236bc74620afb10469324b45c8201a45cbd6954239e64086f3cd53 0x414231531dd52e5555640faeae608c4a0c205a04f56d187ba80855dbc0478370 0x74281ac27af75a01e98634954fff2bda8f893614cfc40285cc02a3d88ab9b842 0x1a1cb8ea81fa33e3d27a38d946ab7829f67bff6863af618a163b198f8e0cca4c 0x25f49e280702d9e1e8f40443f6ac4c4f66f2c95393eb5f044a3875b7035311f7 0x3560647be3f52d9c282211b49d34a1cc2261558618fbcaf8d90b02b02e64f9ca 0x330d3e3422afed74a2ef82d611fe2399719d2b69d7d33c47e7fe96fe199d3cf8 0x1 (-0x55aa1a4ad58ffb76cb7ac1ec80f03a1480bc6121382298043b70a23edc4c0baf) (-0x1359d9122a3593622ad5a1a537c47d0f1adc97c6d177e82d7a4f533238b92bf6);
EDbl 0xebc38c54fd6aa12dcc60ca5c72ed865b7c35a6bfcf98778c235307d306de6e4 0x4b3a1d9f2ef40fdb3e31ddd56a08526dbda15a4f58d78162c7bf23886763ce2 0x2508a7f4b5b9ac054e2edb8c4d4f3447941d9148d16e5bb7c0594fe198b6c9a5 0x38a994de6626e3ca746c6e417118d8cdc97bd84e5ef6827906ed7dd125fbffbb 0x13a0ece9b06d37c5263d92b523c9a486355e47058d8826c146942def8d453616 0x1f323d6440cb5a4c7e4b0c3b43869664e1a1c8072a2c910c31a71ff5db2eabd4 0x21455c535b051fb6619f1733de7b0c7ad6cdab6050b38fa90a84fe7a0d2d7bb9 0x0 (-0x3e2c965234904c51becf601a51b371d33e91f67833bb5baea1d7dbc7b15fa628) (-0xb893447260a6ec2c38d3c8a57bde3f9fb2a1098f9110954f19b4cbd68ae228);
EDbl 0x3b75696730dc8d8cfb7ddb23241cc7ce78a13e6a377db5da527a1058e60e49db 0x34d031744cd2d9cfef9f9ea654000016fb3e8b4a8c44198760f46016166deaa9 0x4008ec05def3cfb12e09a53fb4e5e998342a3ee3d2a12d71e7289c6a3adc4e6c 0x6a6e65463d7318e1f6080969f50640f5d710a395a82d43e4fe28405c1fe2a2f4 0x2a6579405e7f4930c7fe642a4020575da2e664b1d58c167316ffa3f1e5065488 0x1b24132063f51cb7f143db720cc209096cf60e466be56c845fbb250c0a7e2b4 0x2c3635196a2377009a52c6c648997a0c42672b0d0ed9ac88d12d01dc4434d0 0x0 0x129c8a4f21ea28c48ff10e4d7ef39befdf4719e88ca999e378e1a2b2512f3be8 (-0x117e2e888ccfe1b32aa1806d5dcadc2825cdfbcbf401e067331346757b760a6e);
EDbl 0x6b2bd5d00fab38ceca21a27d6aaec82626b14b555d859527718f8ca404eba4 0x727340c27a15f6ab3d80547f0827c56ab1ba33bc30d1ef3909ea9a3af10c67e5 0x7c49fda030bc2282e92581ec8464c3b7b73d1faa447bb075fb80817ce1c59a1a 0x5e26a6277081c3825375c9384c31fe284e564bf1abfde85f302d5cb490360443 0x61dca8873fc5a0ff6a50474bc7cd3a7097192c47678237e934acdb37ae706a16 0x1b9ea8de287c450b4b69c9c92962faf1eee40ee814094afedec9b84902c3865b 0x15ca7acf4b8072b9b18631fe591410454b30b0d9d9ddc541ba2ab1e6d58966c6 0x1 (-0x30bee133de03a0b6d74e9ae833cd02febef8c62603da5cd9a6641d7aa5a6a586) (-0x5780a3dae259773d26dbe896996e46f320233bf6803d8d999d0edf2a724eb525);
EDbl 0x1f4e8938dcf3a6d5907d88572bfb36a8191aa9d05bae8f68d3f120ea165b2bd8 0x5a8b0c6f649f8e191aeeca653774a6ddfc8cf8ae3d4d232e2148433b9bda19cc 0x78145445e317347fddc99d67a27954e487cfc9eab3c14b83dd0b1408fe81b99 0x6abef1a9ecff519057891c87c59266fc655170c0c4d0b1081315d5d9594fdbf5 0x633dac658ecdde4859ac82b14b6ad1ae1cd4742219949c4fd5452498c967c05c 0x59bb587ae724905cac53e96611d3959b8238d2779d02429864341dfe6673 0x6655b320e7ae2068beefefa8151090fedcb57d3639c6f70694416a341eb84df4 0x0 0x17862ca5aefb03a2f71bd008bc45b20a1ef7dcbf7224bad55f5962e23e541818 (-0x46332bd4c45abcc6c4e272a26bb56508d2b57f0fe931bdc600842ac90fc5c99e);
EDbl 0x8fe8df51b345989553484e20f600c2e46f4ed256f3c8dcc1615b872f0c2b925 0x2738e06810f4cec5d894c91432edeab5ba632e54d06f494b751bba44bc93abf8 0x24fcbd677dbe7b9644e1a2e8953d8530c84eba6da689dbc05c3d5ac509712788 0x4b426424e2abaf31d55819e561c67d8576a1ea72f6cb6f7cb2792e099b9b6db 0x5fb768dad06c3f5cd873deb5c0dee2a78f1b643988e2db376eea381b90488f40 0x7a83aa75b6f1fff29ff687df640a376b6887f5b3e0060c5cb27f7fe82dc9298 0x400c2089a8a42e2aaadf88c0441e3c1ff900350e80a0653411c336d4d28289e9 0x1 (-0x2590a4f6233c021d2b2a9727b5a666ac0c5a7c6bb3ce36ab071c97aa96910c00) (-0x1d5469ff546e468b238f189e6ee68d5d23fdcd20ba75c1cef280bda0f710f1df);
EDbl 0x1a2403cc5ef2ad62b4f09afac79a48a5ba8ef74f3321b65a716164d49b141c74 0x7779fbcd8be50c9b021180ac97a544ad0c21cd1f3bd263ce5903b9afe4fd76f5 0x44d1d55e5a5a73371253e6315540781e7db3185d796dd5944a59c41a5abbc942 0x174bbda83e7bd714307319769515151bae810d62455c23ca69c8e977fcb4809f 0x5279e849e42163dd1e1f33453fd49cfd30cdf504cbee4e361f6f255da1f8b74a 0xa1cbfaa59a583e032235ac7310b289932479adbaaa9c603a54a1adad17a593 0xc04c2054ed09429e0dbac2808b7eab83e196a1b764753e06db21a50408bc005 0x1 0xb54db23be1a7aa81041b46ddea115c39a4472164c4a892e5b506432268e9438 (-0x4cfbef71c6d39691f0fed0238e9a7deecbccddde8d4547080053142724fe95cd);
EDbl 0x71dd75fe35761c01a48597ec730bc33237902fd4ad8612cbed1031eebdf40de4 0x39674a4532078e34378667beae5cb55f814ead9bbaf7e01b3b69533e9f88a411 0x6ddd2d9ce6d7e890517747b83794d7766b05d2492a21f32600a75f6b9d7e6c5a 0x59f64a67e6b9bd7a52a794aae04e4b0bde5165d2b456786c59eb846bddc57e 0x127cc8ad810ed12d28db5fdc734b76d4a0d87f1ca89263526bb28c18ce5f5911 0x556abad29a4d9b3ed1f0c2a963363a674c15fb0ab5ce44a29db2bf60946264e 0x6f8544723013cb350ce9d237395a41eb0de68887359ef3e10e7d82ee9d47d787 0x1 (-0x205aa459f40ebfc7b3f82bd4f6ebd639542f9e4333a0ba64513f981c0b7468f4) (-0x84a7c80e198c4f74ab15134b1e67fb7a1044ad20c4729bb7dae03082fcdf653);
EDbl 0x300d6b0bd6734e6170b814d2f28c82de4a2debb1c5589bc8b2671e0320587090 0x40ca073d0343190c7f042b83c7bcabd3fa997de98f4bf0e2bdc4a7bf5c55fc81 0x1766230d922a51b6a2e4bbe218d3bf196e057dc3a0ad335797b9f805bdafc643 0x41cc85c6bd681466fb1c27bc09a97f04127b3beac56385b151fa097ca0269354 0x2a6662b92b3dc2b058376bd9f0d5bfeaa475be2724b65259ba401176e276cd11 0x654a837eb4f9d7e3ca6e610448f3ee1c8e477d51872438d9b645b719b7478461 0x19be517f530366101d9ca8bf061a862bdf1511a3b51681fafb0e071476429161 0x0 (-0x56362ac27f8ca1f852311ad764c74368903dda7a0dbf5db1c995c814b034e298) (-0x15761d56311ceb9f8d5fd28341a7f9873d6325b82da65be2e687b5e97a8cf9fe);
EDbl 0x42545a6a59885c28266ae07652d24503c2fb5830c85817f6963981168cbec8f9 0x706406cdbd1ce0bdbd9ea269bab2e060b129d6da0f1e6983fb9b15672c2eb507 0x22c3d691027a199851195a4ff8e98bf854b2357e5e5c747b84d3225641eddc00 0x6f5d0d4546c2726be4862fc68565869b0bf6aa9f81a2c06d0b093e2bf3851413 0x4c9936b4444858d3936cd5768c7bfaa2b744752123464bf186361bd5b1973813 0x120a11b0f8c3d5d60a7b4c2a6b34046a417122e5104eddb160dd146f6771a900 0x20cb461bdc3e2e44013b96d378570802fd6b429bdc1449b7d52e89f6b6fd4ee6 0x0 (-0x8f39ff8c2543260aa736d7ddaf2bae825ade91c01adbe800aae0883d681c299) (-0x4341eba2c5b238ef1603bf4fdc11d99882995c9a28bc7e043a11d67f28b8de72);
EDbl 0x6c1262e3f8a43b517673a0ce209f76cb22d7cd7e54fce6ac235711e441703a02 0x193841cf1e0f528b9a8d508a276202a84f1fb096c5ed013a7f486f0d269c007f 0x209daa413750c9b41aabfddd6c8e382d1ce19b5ba60c7ce5e4f3e64b6cd46b15 0x7e20bb124e9e38822f1193f5fdd10cc5f38236baab17bed7338bfe0b18043d52 0x5d8310d1174d6ece146596189142d498d6a09b5f050b41f14e9817bfab2fd23d 0x225f34d497c80846a661edb27a77baaa8aed4b93eb7972bd411fbf21b120f80c 0x62af5a12acc69ad6c146dbd53cdb82482a88a677d2d4b698510fa2d301c33a7b 0x0 (-0x25874436d77eb356abc58d20074e7713331975753be528b167940381e9a99934) (-0x126cb2b4107c9b18a99c9fde2a938a3565c7e08dc305d162023ed2e831b594dc);
EDbl 0x57426aefc21be9ccf162e23d25ac3002ba8534351e65613f870f690f2fd46cf5 0x6b45b002fb4e8a6f59a6ffb006ed71f75434217333b266325204c7d1ac2e1f34 0x292d8c24dc3eb74c19f53c6b44b11adbffc35acf0a44a8388e5c883cbd086bf6 0x195076bfab790ae26ccc6beb1bdb43aa30613b18c8224027ad4df318b8ba36c0 0x7022ea9acf3a539652d72f7fd72a28ce309de049bddd97ef1ef16adbfbb1cab7 0x5b3f0984d019bd0b6b20cac6089d26d5d63f0628a6795c2ae5b82528ae01de86 0x4f8126e9ecdf35192fa6422d5877aca1570e5fc35b4be53a3e1f3a17ed6d725 0x1 0x21dbbd4d26f08885ac4551e17c35d9d9ddcb9882a7e09bacba366332fe2298e3 (-0x5dfa3d227ff84545e2941f7b9c82b3945c14fe12b95c8fe2a7382c81415f1122);
EDbl 0x205aa3463e7e41af60f5cff4853fbd6f748aa1b132fe5308807d22c5030b48f5 0x320b08e8ec6153e2be9955058bd26993bf50353e040c556ef8976663448735aa 0x47991d8a423d63635f6624100c399bb9c65cb41f0b25bf16fbc997e8328ef90f 0x3b7c36e374ce32ca0585980d689ad7a0b4c693ec4634e5c691f7448cb80ab06a 0x73e319593290cf66a61f73fd5c613be6ee69dfcd3b0f26af962daca4857bb748 0x3b7c6bd48c74f931f55085712b76080314f17a00ed8ba6585d41965d3dea7dd2 0x59e6a835b16673492e7c9caa02c133915db76d71866e5a3e35b8d063c4ec79fe 0x1 (-0x74f73887ef64ab37616174982cfb513db50594366cdcd163448a5762a1ce4420) (-0x2d4eb37c18a14312d5f0b8ea24555b1c88c2ba234c86a2f3c5efdd23df7e7b29);
EDbl 0x592c8b8843ca1f7d9ee692d5e29bc1612b0a98bea402c5c2e1e8253b65feea37 0x42a352d8dc52fef9017cbe617cdbee3aaefed1935aa62f8679af6f2a1d00b5e0 0x8d2b97e03aa2cbdd75c11c3e3ea1fda0b6661918bbd45a310ae06cf4f406ae8 0x49cfe010a7f7e14a63596020bb16a9a245228f657f223081389c98919e23b221 0x40fd2692a44db48c8bfd4e5cd72c89c839bc2dd3f364eade27ee91c24ee34739 0x82d91d18a4c101a1700909625e38b558e77df74b6ea59c90f4bf7debf8c31b5 0x13909fe981536faa4fb429e2821d3afd0e53e41a8965884e9070ebf4b815776f 0x0 0x13fa3f0b4a9068d82e142075076e26f3e5b4b2b3bcfd3c9be90f88215de685e7 (-0x21d57453033992b0f40bbf6efebf71957f37785dc2d8afba4fbf60b90f2031ad);
EDbl 0x41c030fbca90151ce0d0064a815e03825ed77a4ac634604ac7137bd3713af22 0x72467625ee43fb7ac67dc71c655e5c16e4e97c2a3d4445e7e9b33fcf0780f989 0x6c8cf4635b315073611b23590102e65d438794cbb5ace90aad7fb6516f98f3bd 0x5f36ece89f6ce77d1c07619fad2e6904403233b2fba7ebb3c7a4ca9f0952c2c3 0x72a9f885443b9709baec3e46ac2b82a6fcaa9ee745fb02a91a25144d99b9cef3 0x3e20018a040e330b85247ae7c1a3306410a9d30f178f29b84bc9b8dbead9e9e4 0x22b13dd4d926040595c1829ee20917605873b373e52d5638e81d097818017c91 0x1 (-0x592b191685074a673a563a4a611ad15d88c13e7bd644be036edec4ef4b345da2) (-0x665e8021455404df1609916c635d370deee480ad3c4f2d7837c473738d190f3d);
EDbl 0x6222bd88bf2df9d5d44b60cfb4a08a960078db7ed51a35eb3e0b6b8ff4eda202 0x325bb42ea4ed025dd6bdaed261b7c4f5410b608ba902b068f1efa5782e45313 0x10df731a54f918329bdcf53965a189418ec504459befb67c74e2fea56e117e5e 0x3bfb2733472ed27e7e2b99a3305b18b52b84a872b70e76e4da03636084758ca0 0x2b1bb418f235ba4be24ea469cab98f739cbfa42d1b1ec068652064bb16640e42 0x21c65252bfd8ccea686d9126e97e0b0646a752d06c9df51f67ce82631dc9fe 0x6605a93d36f3acd89255d87ac831eae4fc47445aaa4fc2d6bb335fbf4aa4b955 0x0 0x19b67d666f69c6ab68e0b96aa8a558dca1eabaec4a75fc06b8386c2afb18eea0 (-0x10f5b4ba731c4d62256c049d433c856454e2e5dd9b567061081a6eeef491cf6);
EDbl 0x23bc7abc84cb4c4ae5fa62b25a0a8114e8406d9bb93f2091142aa2d8bdba597 0x4d2b97a739eceb14c95020371d7206e904f94b8f2c620dceed8511df0f29c9ee 0x6e0690ab4477e4ecf32e726c02d51535bfcf0ab22299d6c4f2743c920d912770 0x32baa6c809df159db80c465a648425b52e9787c40373ff41a4509e328aa1abad 0x44b4161cc56730b0c4ddd3ee61af107f6ec87d11e0da287cb1dc61a07d10842a 0x4b3d3ba72e0a5da74bb5d7b8ec8e71605f8d12075a08839b0ba232276a120864 0x13cfe677a0ceebb2a2b4329bfd50571e9c6572755d34de0a64f7547b76f72c 0x1 (-0x3a09595461a223da42427622a9f45da38734f4bbce4cf90f53dbe9689c9aade) (-0x296bbb32f08c8a6d579fa04d860ddd2f74173afe5d43929661b8d230821eade1);
EDbl 0x6d5066cf7137b4a5980aa453b672c84797fc6856f0ef5cf0c4be33fbbd39d169 0x54bb8cd82a0a87c883abe35abeb81857f95200b4222ea95b5cb347115219a417 0xcf58ed43e538ceb94f80f50d52e75063f0c30509e3fbda00ffe5915ead0fb74 0x5f3082c33d261791db28d238033d9c39966eb42ce36da879be39f02546197335 0x523af3eefed28aa64630c2e72e0f2733576283dc452dead9ae3b970f5b4877c1 0x9fa28a81815b5b33a2bf022f62b23ace4ad80f952ac857f3047c6611fbc71 0x2e86814dc9b95d272f3cd5b15d3b1cf119cb817a7c8b7925472ded362981266b 0x0 0x438868ee8350a19ff9b641a700b21382e2c92a7fbd5637a271a19214bbdc1f59 (-0x366f2cb08fad9878702d5719294d838c616663f2c7456d8e967061b9dbbf71da);
EDbl 0x6b66159ac8702d4e34073b76629deab2d3aa50942db5b00e4a73e8be859362a9 0x19dd4bef38efd504e49b3a5d584432b9ce630883226031e75fee1a22c8ca96c5 0x27498f53abea43475e384f684c4f8021dc0de24f5988d72e0a8cc9c934ad0f0e 0x73e153bc8df1febfc117250bf30c15473ea709817b41a1d234a69f421ed19751 0x4c97c468e207bb7862ded5a3a6bc95256299273221b8caa42a19d578ea248843 0x5d5b219a22b451ed3228d24751647b3ef71193616422afbafcf2a030cd66a7af 0x38173ba9d9c2f200e51223612ab4453aa25df5a1f62a75f1ffab8f4a4fd995c0 0x0 (-0x5075ea600d7f14a84a0ca234d14ec8e0ced9bce33d4025b4df0980c87e2256cf) (-0xf7a0fd5abc3dd03dc8c1f99ee52a7c1237287b4e85e75ba3f70f8efefc03b74);
EDbl 0x71ac99647b61b9eca6f0c23432a518f738aee708d5932d4ef0f172240250a226 0x3a96c2c028ebe5f48913be30147e41bc5e1cab9595d5404138a9aa1b5574cf25 0x6bc9947b091906643c97323c99bd347fc25728db2fc826a2640cdd0954987ffc 0x777add0299cf8753e7376bd7bab7ec74f7e9b36bb9454b98236405a120369925 0xbb1488790b680efaaa0399b20fab7f535928a90897d24f5bf572897cb9e1929 0x5a1cfd89397083774a48a013fdf1f020bb012a0af16c34768ba09cac97eb9d49 0x539f041d55a613144c6e0c0c5b297196a67dfdbe4ba435deba3efa71b656dc4 0x0 (-0x2104f61be87a3e93e99017cdabdf8486ec02d8eb8c682b614f4d6704c1f32594) (-0x55a1a68ac077e2067b043f7f95026b8f00514bc0a6281df3530da3ea0c11754);
EDbl 0x221b138a1bbb6548d2ef719bbaee436114e7cb6b3225dfb94c327667ec45772b 0x7951b295fab7fbffa46c08f6979bb32060974fb037bf5998d0ba5a38180cad84 0x12bf7b478e4f10eafe9ba460888d7ac906a66014ffbd6a77733372e09b77cfb6 0x66e137a23724409208c86f1b776fdf902ba36e9fe64dac381dd2f63a819986c1 0x5421bc5aa8d52fa70a2ccabaeee264c724fd0e8ae69041c0aa9f8359e621b70b 0x64f3a7925fb6a8c062dc1aba27bb58a4757a7968f4c9232cf873161e6f6bfbe6 0x1ad1520fbfc54dce732f6a3937b13adb30be508e7047e17b7b67a665fa0623f8 0x0 (-0x51a56f757a3e5109affb87f98c45125332eeb858a42ce1493c617b130775d14f) (-0x4fbd96c862f6840397bf8bcf2c15098f8037944533dca3328119bc11af642b27);
EDbl 0x1c1b0d95db6a057eb34f28beeda9f6bbb5315285de2804d15c3b186bdb3f5c28 0x57bd5de4e0056cbb4d98abef9d1e0ed6cab1628ac08e36073e31d00a9ac3c5d5 0x70302ab8b8da3fe418b02507664a3dc51c6f0b7622f0f61d463b9732677aca62 0x4c4111a979febc780a7d8fc3213bf0b9e84a21677d8b51f9c6138ff177e5d036 0x5c10e6f0c1247c93f1cd6abbbaf1b2f4cbdb15f15a9a5bdc7fd7f8bf106b05c1 0x916681b9ffad61cdeee56198cf31177fbf9c4e26ead2c87bf084f949d339153 0x72fca9c88cfefa5596b5c2f7ec8bb2d072691e5c1c576466ee56f8af9419cc02 0x1 (-0x2c6f9286303ba17946a01b0cdb18fd31ed30344a1f86ea5b6eb1802f404adaf0) (-0x3f1bb17589cbc0bc5f11f3dbe03b156e958ad4485b3aad00439e65c79f74c52f);
EDbl 0x4f846fad2eefb8c948a8bd3a87d8b4dfa0a0ab643e724ebb1c91437c567c9f47 0xa2640ccde505da1aa9227bacaca13d49a67a199f0e16aa9f86c2a7e1bf02d2d 0x7509b47affd6926c6f6283429fb5ce66137f40d78e13f4283039d686f84868 0x117ebd5a23f0330cd10c52279e37652389f43a7b9f481d0726850d977daef1c7 0x1109b3a5a8f05c7a649cefa45b97af5523e0bb3ac7ba0912fe54d3c0f6b6a95f 0x62bdba94ca8132593f5f13ce8c082630bf885e3bb6d04c55ed403009c524a38 0x3c2483caad4d1e9b340335662d831d99d6634a07bec66d8267311fa4a4f6b4fa 0x0 (-0x1bf251d8af0ee20e44bf7c6a73a9d924fc9386fecc65feb3be0d1116e4674433) (-0x159d98a6541992c9b7bd75cc18f1fdf5e97c51b2c92a537c02c99a719db59a8);
EDbl 0x1f6a1fd8cc0e05b2742ba0fc0369b5247670543637dd033e64dbce90b2f23e9f 0x779964401ee869a9b31c0ef874a86440ba85d25c2ce932bd31a0865869605e19 0x5d27ef2ecd138dc2a5526676ad0022163647041fe4d0dbe824c033b8c8c2943c 0x7feb06571fbc9a600b350d240c9e1f1ba7f18bdae467dd94603969050cc6df0b 0x22c3172852a90c9d65e2a6ad5f9dfd0571aa87baff9701ac3b79354c44044acf 0x316602e07c8ffe3e4a88cd7d5f613f9c5a6ebaff9cc8b3d0e5bcac10f7d5f6a9 0xce058e9d2eb48f5a8f321cb66f51d36bee613cb096dd31d435595c76dd5e96 0x0 (-0x41426c7468abe84412c6823c1c3b17ea7b306c3e861ecffb4cd8de61c2f8f59) (-0x207b07f2ff13e4425aeb4fb442ffd0c85d6d4cdb55d54399472d5ce6187542fc);
EDbl 0x6f0a87af6e0f4a05fa7067cfecd4f98dada3791f714a66648dbb5cbbfd4f326c 0x6b6013813505927dcbcb6a42e887cc1d5fca175e4cd226be6009248c6c6e36c6 0x39aa822a8832a1fb17b3619fdd62b28d870cb94bccb092772c4b893ce848c355 0x14e94a7adfcbc4959adb29fc977a8d7958e1a2025bce773085cdff9655f152f6 0x5b3ec8505799229a8327c85cba17daebd1d4e8b68f1de4b9598276596da88f8e 0x7b5bf69c9d534049f37e87bf9dba391d39fd79d346285621cf0b4f33a8b8b9c 0x6fbfee393146587e37b1c3ffa0aae3447f3598216e4f64ae697ee4427adfbc07 0x1 0x147355360f0cc93b2ba9e4ddaf57ec0f788efc068a3371fafacd1f5499ece102 (-0x4c8af870d2497b928178183434a90979e2ce7f01749732e6d444162cd2c9a67f);
EDbl 0x1f90c7ef4610dd083b3d64bac47574d9da326b536b9a6eb0f6c3134a847a0564 0x63344ccbe4169ab97a13c3ccb097c0f4fdffbcf6284412303c79a1c8ce3a2f7b 0x42be2a9f9da771a6fc78914d95a2475d8fb40a9fee18534dc24e5979a2d5176a 0x345927cb0ecf2b98c9120bd8af5178fb23bc430cc7655791d504640bff086fa0 0x719afd2b7127b9f1cc997a8b19af319d9408386cd94d044412b60a925c335823 0x605444320620b35d7fdf6348883ba4d4b2a56e6e09e992ecbebbc26579619dfe 0x5a12e8b9496db770aa190264b0edb545587cf6f19ea56e2c9dbf8f0b0b021f14 0x1 (-0x9e48435b7731b58e7778464d92b65dfc25bc88f3f4d468e56d87093e2d4f0774) (-0x580c4aef6fba22f595dbf125c16936a53bb243d401ca11767ad4a86a6d6936d9);
EDbl 0x47ac42e7c59481a928348d7aaaade88b00b7aae4e73ebe0dd20e33092dd34e07 0x28a6c1d1356c10ebea15cbfd161ae974f3b2a4f51ed06403c2f09bb58f7a8924 0x52942fe9fe865aeb6a1c4438a0fe7d1ce99c3e7b8af562b577f857fe26bd001d 0x2f4af6490a45254b28a12e48df1521c47222a6412e036c89732c94567b7bc40e 0x5cb6c65f0bbeca5fbe84ea103e16a4a7888667c5a30e09d3fb343c5854bec3de 0x7c8c49af8998e258bd07dd6fa6433d0464eeea59f8215081c4d2cc2d611ae5f 0x4ce2fc29f88fad5685695369145e13937e9e7745decffebff06d9406e4c955d7 0x1 0x2fc6750578b3ca96960e145fc69855c69853d377e554ee76bf3d032b70919a2 (-0x1d71e76a172c062faf58543f6a9c05b21a827968079a5f625d952443cbdb8627);
EDbl 0x22e2c039067920c42980dcb3a905fc91601c2b34e819ce1532ada4a5fc39d5cc 0x631cf9945a09bf26d7e595b3f8e3390696870512820df63c5418577089e1a8bb 0x5cf0674a010cb22588c34fcf93ff9534c2f0b68525b0f930db9191e33bf9e820 0x6566d3d8c875cd6a84eea7f556b8c6aab41324374d8676b452a718d9fba395fb 0x8766c8ec7691b44fc2b5825c2b93175f1226db227d57d83771586f6bfa9addb 0x2822020d110c666199ec959ca8df59b9737c258c4d31479e8c08ce80afede035 0xce912629d8055e9c46f51995ec943e670126665dd2e0dc6a22dc2bdb9775ec9 0x0 (-0x2b37f70927b651425ff4bc8ec53a872b6b974b392ae589f9de18890e6b3611c4) (-0x68d825e5b861861a85fb696a1543cc5efbe7832313673f0e54890e6de595256);
EDbl 0x1a62e85ba4a14a3f24f9dca8529ca842f5c7f18a3f429886d6b13673649ad53d 0x1f6d17d9a1e5c5d8cbb98100757e5183551d00091183e6a5e1eb0dd514c8bdc5 0x345cd9ae612b4ebb29475a90b42e31a439ea3928f3e449ac1c1f6c17cd5f14eb 0x1407c8413a8c30cead4cd5f28d900ab0145a133eba7a96bb9356e02d4f089850 0x5faaee92d960e21384057b61d961d90bda6fda15c6964d0f7737741581a98352 0x98207ce357a61f711407d34b83d64174d6a551089757d90a5208df47cf23599 0x4cbed8a092d252321888775cff9df30ba5979c465e1aa8265d0bd5516d883e4d 0x1 (-0x224de79894b35277ab65eb6d77ea3aa38b12c56e065641016d97823db4b305b6) (-0x177cef2a195a2707d17fa13ed516acdb97b5f8db97ef75b234cb3e6e7aee8997);
EDbl 0x36b566a2c0f8e36e760992eb83d509238731939dd9dd0d19513f52e1e9e4f9ea 0x1bde4ad0433ee4e19e734c558978dd945ed244e38414387a43e70232ed39bb3a 0x50b7359f4ea0ee243e345e478914321a4a22758b9ea5a40ec5a5bc459edc74f2 0x378151283d696cc1446463c08da0041a2bf5fa53c15774bd048ba10db953b037 0x66ca1b88eec87e9d06300579048bd1ffe1d384c822b1d0ae3ee5e4c81a773b32 0x5707ad2ad021388edeeb18f57207aeff5fb18ca4607375294fbd8cd3218f113 0x7b734880d84af6046db30e1d70d38f4cb1cff8fbb8d2f02a64ef0890bd56eaa 0x1 0x1efa0cff0fa2677c29fc871f55b8393b8525eea1ed657f7b9756b8f5b9b43cda (-0x1661246aba34a31cd9845f79ae099d427d8e2cc037c449a917d0a76235343b0d);
EDbl 0xfc8f365bb4b04e275d358bd3c277745c565eedff84179ee72cbc5a3e38fe7b2 0x16f91c8191db1e7817455b6a395de2b0f4396697920ba0cd4874e2b534937b24 0x3881028d3e58b12eed9b00ea448a3f54ff783456fd5d8eb7f6949ed7c1151a36 0x213b3a6adcff7d6c2b94ca47672e83abfc9c62b79f2844762e86b37783a79422 0x68ba37dd9ea6cc3d3df9c95d22a44456fd242e60a1cab5be37f2149fc29279d9 0x17620fade967f246ab62310285f01c4e2ae36711a1a47f6b53be25c73f2c6ca6 0x611499b8a81eb5485d6f720ab665b73cbe326189bd861f49b14e137a492d4ca 0x1 (-0xae84fd46e901ad79a72033ad55190da90af9bf4d6244af33b67e02f4f4299fe) (-0x12cbd32d839e4e74c02da4b6b4fcd0bd54d917408d4f6bd04e7b156a04d31964);
EDbl 0x608de273a9f6a534219d7aaede3cf65a81e4dc03d7a2765eced1d2b7be4610f4 0x3b31d0113f98d81ab1312fb2837aa9c8dcc7960f84eb371358c6d841f67144fa 0x25518025117f2a43f34b96babc51bc71fbd56969bcb430d6b927035fa2f7230e 0x26179c04836db9dab9e54f02ab744f7e099b7250a8abab3ec6ed6a9564383733 0xc61bdf71ee8f96c699b847ef22930c0dc608e6ebf77a680dc66735c1411425 0x1f2548644a3738fd24aa83f79c3194c794aa010caa8f801e0c664e3db99b4ce 0x41f869d7897fdf4546c3da3cbb3b26d23698977ce0c057388b664c5e69cdfb1 0x0 (-0x515140509dddc33429d9f79fbe00aa1f5d9f3779cc4bceed488c7edc3fe2c7c) (-0x5b9df1b20ace9ace0aa4d1c8cdbefd4be622736306f00465b90db28ca7ee4b);
EDbl 0x8d1e75a33bf363f2ef64faa0ab5f9582d1181b793ec9452ea93a3011634d581 0x47dd939350f06a41ea9c3d889d127155d0275926d05b5bc43977b5ccae42cf1a 0x237680e2e36335ea7c8086c3ecc9440c40ef84b97a66918e270416c370d8369b 0x9ba82a6d5634f943c011838020895880c640f823cb24aa7c0590fe80bf3fa3 0x5d25274789f2ff0ec73f8abf9357454c3fd6bc3ea964931c55017a3b0fe708f5 0x48d570f3f66543e569865eda952c8bffc9c9687148c7ac087c96eb3daedb6929 0x1b5fff32860da941d25253d4f4a1f084b157e791266e946c82a39eb400eb3c65 0x1 (-0x52e2e1d1dabeb7a06a178f23bdadd78af8dc4271fc97b83dd526093a99128f27) (-0x344bd9535eb66725287e7bee258a64c3d36922601aec03f207f9f3e6606c961c);
EDbl 0xb2fcb60a19e6a0a29bcc1e5224ee0acfd648e6ee2143f90a5f5aa1c6d51c96f 0x6301b568e9c613866d76b4c693de25e83435344795fb78c3c5e944a1f33239dc 0x4367082ea6cfa96cf6d6a2cea87b4b5c6e7930c4072392eef72290952f214bdb 0x363b974c4f5e5f2708e3a6dfdc53d4d1723774aad7f4148069afcb05fbcfeac6 0x72d48f1da88eb5ba120d041133d8897503be43e6d0d08191728d3a70ccae9ed8 0x9b95226b30b58c0dcff98acf855c968860057c3a42b16c13ef5793df673afe 0x28594f47b0a33b845b55366efada5d4ff12caf6755a0d2c081c436dff5340b96 0x1 0x21befb83351ba20c9a4dd902adba4698da1973cbf7d7ae4795e501044d72c4 (-0x58d1ef18bf6688f39b0337941d36668dc5084bab54ae2f2219829f7ef126238d);
EDbl 0xb216ceec26c5cc827ebff75a3b41630d8925bcf8ae53c7dea348f4c0dd3ae27 0x563053b0dec5518f24c57a3f9138916ec287602e8a557819ad77aa2a5312bac3 0x4f49ecc54039c5c28698252ee642bf8127500b4352cee2c1920807883f8b300a 0x4d6712765eeaf62292971bf3d1b8511924743d2be4d2c80cc8bbfb59a9237208 0x7e1d25b11eb130600bfef6c4eb759197fd2431e89203e54b36b3f3d1699841eb 0xfa48cd39e2b42550abaa62ca3f18c2adc604aa0ca0e7c11049ac663e769d93 0x4c94a4a4205d186dfb798f1d695e960b5915b1998d88f1ef638b0cae481c9e28 0x1 (-0x656caf9635c5c1b00f70c0179bb360052e89805a41791381f2c4d5b29f35287) (-0x54eb32b64d0c32fa738e1b105a68f81f83c4db24b8ec01e3c594258e92444f21);
EDbl 0x3f748617ca63ab3e44c6e34f63e7328ea56a2a146da34368a57dca181254fe02 0xfed89e6420fc47b3938a2891ba9acee4cbb2899ee4e9ca15a13dc527dc1641e 0x166a5ef499527e41aa6e8996e63d3b296c2e02df4bc42cedfd86f051a100ddf5 0x124411a45ca3fe2d31c414d3b311a4f2294de869ea8aa64ef7ca72552caaba61 0x7bd9b2afc3517feb87558b3cccd469c8bd1fe58a9ec67960fa4382038ba9dc59 0xf7c773913b854544ecc64633878d603d76d7410539532e46aafd136d7c846c 0x3a0902b4a6b88ee38ce080cc1c8d87858e907d7fa2151536b67e0de35d6bb9c8 0x1 0x2e6892fab92a53527b2295d16bfb4bdb32d0da51169e7beca1ccfd03b29fff68 (-0xf6959733eabe686cacc0c5738b07ff0a5bb6eabf7560e629377dd340be1dfa8);
EDbl 0x8f050e6e4bbb5e43b756c82a0ffd60723f78c3fdfb49c50378a1083808c3cf3 0x38900048f0768542b4b9354736b6880632a94601a17a15adf4f233924875ee62 0x7e042711122cdaf42474bf6d9f334749c8673c14bf9de0e1140fb3b9a9ec4dbc 0x14f65359120fff4487a4d3999338e29485282d64a20cd48ba94657837be7a83b 0x16f22c47ffe324506330142bf4059b4abcc0f14fe26ef3aa9536a3c9d1fb5a6c 0x1f751e1302d2c56456ef3cb79c2331ac656a430a3870e4ed850d84cfab303a68 0x1fb652334b8d80fc51351b53329778fdd3ddb5f07106935b60e899a0106f54d 0x1 (-0xe309c4f9801e19d3bb07321beef1c46f8fbe62835a9ab39186147cdbd13bd44) (-0xa23c3de64477a175f0a3c762a90ae480c213be1a1adb44599818a8dd2eb1957);
EDbl 0x2583374456f20c85e78e820263e1507524897a5232050bd0ebfc357d04b900bd 0x62d1c4fffd5ac72c7e7dd52c2bc9ea4077ebb7032a39291e0212da60cbcea18f 0x3822f3577a409e35330087b0944e103e2b520274336a0905158ae0143bbe8fa9 0x807fe763f8bdbca8919ba5bfb976780b3ef53480dc8abb16e946f006ec8fa94 0x4fe50b1ec54b3d95561932ab67495742889d50d3da5ea2ac59098eec330a6ad8 0x9fcd4c71937510ddfe67b340c6159c52486ae5a95a1e1cdfe33dc4de7f5b00 0x18fea2407684e8d67d4b7bd9e3e7416e90f960b2199ee4ea6e98278414cd30b0 0x1 0xf83b89519a81dea1114c6fe07c4b0f3258277b1464c4fca6be7dd54ce364b9c (-0x3dae4b7638c266c1a68656e5345a9fd99a4c3d1ae1294b98617bb84a816f4603);
EDbl 0x5b4079d8c7a5a10bb68984233b2726bd95196ae2b50e6052441fc4e5b98881d 0x2329432253e9aa57901c1369e57e54e4a363d2cfe69069108c833fa8d79f612f 0x29c0b9b9bb90c18de9084f20d98b54a854529e96a3dd1ad63b30ab253d4257cf 0x221f09805257f43a392c97929457dc58478a9514680166ea3e883596a8a9b727 0x785e4fc696c732ac50244871bacc87aff337f67dc4244c1403578a716b675f45 0xafe6276ba02c5e3aaf3c6ab487b9d22881c77abe991ab378e6c489246f3c762 0x4c4a8d6e7f1c5549fc20b5be52088899a19f39ff160e5c375cbd2a47ddd1b662 0x1 (-0x348ee5b1c393402679c50a4e387792e3814e0be07ac9ac209271ff4f8a652709) (-0x21109727808ecaed41615a7a0b78c4716f40fbf22377c5742af9bf5883c1e5ef);
EDbl 0x69d98b5ecc35d56c97c0bf312955d199befe116b417d70f5f57e2dfd0af81ce5 0x3e26d487fbfe36ab44e0ca3b248fe94bce92a69b8154d50e2d5481f8259f4e8e 0x2704ddfdac18b71f783dc241cc8ee0b7c9ae3d2f88b4d1216e85a2d49c508d51 0x2c0812f0a630201fcd712b5c54123ef150a41ccd2fc9e40d6789302b690f010f 0x50334f2fa1769005533691a87835e3986f5df9da71512ebf9038d56ccbe73be 0x410dcdba88a46f35de21951cb1ad0ea48213a2e4189c85fed8efde6cd0eed8 0x9a89e03eb1783e66c608974e4f329f2b6f1ed27f025c56f994e2de54b76559a 0x0 0x10304d9b614f70a81922696098caf649bc031c7e0badc396631a78da8372390 (-0x26f12ec0c381a9f77db6bc32da9709ae2f17aaf39e49d009819915547c98648);
EDbl 0x62a8a839f45660759f741c7892703326e4ad11bd9e102c0770af6ad49dd4b6d9 0x3d45d6c61b8a03c29d11cb1e9660112995fd3bc8c1553ae897448b613555bf3b 0x3a218caa47303e0555d3a4f5431545c8150186b212f4555bf5d23a770292eae0 0x77cf2d690b49205fb434e58933e6109ed749c525585533ae6be55d2bc9177941 0x3dada0bec418e25a5e614093f0d0cad6c2483e734560de52761322b4c6848e61 0x57885a62ac34e267ed8fc338b2585b0f51de1bb10b330da8b304db6d378f28bd 0x1e2da9ab4dbee717f1d6461807cbf9dc2fe811454c9373c3de123e38a28ec52f 0x0 (-0x3740c3ab42e209abeac50c07f8206689d0701ba71527bd58cb0a3ad97f73cabf) (-0x1d8665b14ee249236a42c12e3b388bd6f85a60a6819babfcb0f3c55fb76c0c5e);
EDbl 0x4e1c036204e123f311e8da4e3fa212fcf0acafbded425b71a66b0dccb2500e7e 0x6a5908d961f00a62a2ac904fd824f6932f0e735f257a7d0d273d61736f1bb1c8 0x32f7790b2e577b9516d3981e3e8f7a426a31ea2273e0a92ca7d2ce8847367cff 0x188b6d8e22119a2836582d6c6514b8267e1a6136e0485d90f4f53bac6c9f720e 0x6593f482f3ba1e931f84954e26853de413e877146c67b4644d226d242568f4fc 0x4c0b1fd3335de2117d7891c0818bdc792861424f17198c10415fc5959e7c107a 0x1d54b6cfc834db1441017a77c88ad4b12bfacb15b458c7d2e7924bd86458dc57 0x1 (-0x20780535680f9a3b637e317056ca1c0b3235c7aa18e8a5bd66b99ead4a0af636) (-0x54652e6236b8eaeb738c67765351e75933e09560a8c8219695a58d1c397ef031);
EDbl 0x7fe8906b455e9f3a49464810d3e6b8e5fef5d17226ddea3b18f08e2ff8552d6f 0x1300ff9d28f135030203b137ea4a3ec18d5dd0dd6b29a6ee7040b97b336976d3 0x139a50a87a4d706db3fd261a9333f1d06de4f96583f86a40bfdc0a3cd645d8fe 0x65c689f6a3ae7657b1c636f67a90c83e3c773276b43df070fe40923b652b51f0 0x522c394e296105e9fdc910dbe75cd66dce923911304586303e6487fe8ee578f2 0x2faa2a40f0eb6999fec9af38d455907f561fb4cb63d675a8a76f68032fee845e 0x585bb496591e606e2cb723a681705ccb334d8a6670974a21dc0ef5f7a157d990 0x0 (-0x2fade1a1d2a1213c12d4a0b61e863a0c4d800ccafaa3e681568c68463948cb7a) (-0xc33349a98d51263569c40498045f0aa21173e0a5df9099ab2f00ec10acd57f6);
EDbl 0x1e34443347f9e627b3531157faab6eaca1bc3114df4a1423cc12bf8417b5d622 0x295955a5ed061eca7f87b9485666ba9489ec20a9c484224dc920350bb4a6fc79 0x46c1702e682532b681fcb2e3b68cb8ea96a5fc7e97e5ffc5b33c0871452c9c4b 0x10b6b038649a284342008755b0d295afecd8ede084c662d85b35faf783d0d6a4 0x49f54009fc74f58cc003d471fa45dcc55632f161ece06312a7f9f2863ea43a46 0x7fd125210574f0f3e2beb9b4bfd2a1b137480d980ef89819954a951f35f7ea6e 0x2d24be4a69c8bd4709fa7afd741f3b376185d29161b2f7c2e6fe048fcb6edb9 0x1 (-0x14875bb049cbfa04c20465ca2eaacd796bffa06f143ae3b9980863bc82e094a6) (-0x17e42c86756dd05ae4d647f9ef216cd2439a0ea02bb4e7e70693c3d8dc5000ff);
EDbl 0x4cab819c06b2f861b4be5b06a918bc314bf29f56cff389ae2ba8abd5f1f5e156 0x1f10fb18bd5ecfe633b53936f70ce8e58b6a864e679297770f2b38160176681f 0x4041458aa698798daacbf5eb75b314634b9b450820f93e2187efb7285a471851 0x4be2136fbf91d2532c4755f610c81d52a2d6e271fc32cbb58f399a602783a2d 0x447cdbac5560a39787f87f73eb596d71de92291efec9ee99d103e27da83121c9 0x720954f97be2ff2a4775d0198d7e2cc9ad5f7f4028d777f56bb78f8b937109f 0xd5b79379fe4be1f76e14931d696729db0987c6132bad68c1bb39ba58cdf0a94 0x1 0x158241c9b173e66467ea70e7a950ac25120b9f3c5b14eac7d541f16ffbaf1faa (-0x109f532945b84ab988ae85ecaca8908eb9e69a76d1bd8fed185e8783a133ef13);
EDbl 0x7c686b90cf6ff6a3a59cc7d8a5e00a2c9b2204decf83f96bb56b53ef630df083 0xf1deab1d3a4a3d2528d9103d118fafda873ccf0a518c45821d51a7fd71533 0x4354156066c63707fbf489403181551fce7db3f3d1b9e63eadf16f10f9d21130 0x270872ba9b22973cbaa1ba1fd26d99f730f3a24b76907c9a89ffa4086f117050 0x63b45d5a345c6034bead30dfa0ec44d76275ee57a4d6965bdc0e34f7753f5f0d 0x2dec8fb61813a8d4bced18b138bbeb8fc059fd985e81773443b19da8d7341804 0x78a3be0ae7c4fdf6dabc2518a3c55ef16a9d206dadd88470bc5afbe51603915 0x1 0x3bb0a64e90ce6974e1426705b99c898a1116ca0d4668af48cf7a46ff72c64bbf (-0xbc6709df7803f3f12e4298b3a168b6836eef701296fc54eff70a85b061655);
EDbl 0xaecf4e5a0c4c4da709921a44dca45965f89a3215bb5445cf72dddf4ade53a2c 0x19304020c00e6169712d6050734bf5c51bd0af80b5ba4a6a0ba008e965216807 0x61782665f12f9eeb21f5eb35ad565258f9f2bd26e9b4582dee1ed88ff720a2f2 0x459204a3f5a9ec2266f308e8ff9bf5027b2613087fb5a6eb6dbafcd1cdb9549c 0x6419de3e047a4d3744fd1db35245a2a9813355e196014ebd7f9c2441d698b197 0x78eaa597b79ec271173deeb82b07a4a554247689f563d5699adba22adc191793 0x1c909ffb481a1de2ee645828940e5ea9f6ec4deb87d9e9eab3222dbae21 0x1 0x86df1f2c03622e3f941a5b2bac9078c9b0349dcf1fb5295c070fe0b2cebc48a (-0x13b2c941ffea2f0f6b07d11cde95960430b2eec4607e13d858cecd549d086705);
EDbl 0x51f4ff8c599b1c96da82941520a9f5abf4a31eb8b84fc95056145ceb3b5775d0 0x35ac9588d46e41f3f6f99aee3852eeb4b12e807807d4bd1b7f8406b0d7863ac1 0x5bd4f9ab81eeb150471ddc4fb13fd493c20de9079a89b3a1c38e3659172da027 0x6b05bb45d91ca20c3353298a9cad89e03381b1cbd02aeaa061a31a164fea5a37 0xf30c19a572df0bbec354d3aeb6db54c7173c8c435a136fe9e14e3bd38bcba10 0xeebcecc46ca5383f95676e936b53e847d278b4cefb169516a93fd221a4eded 0x4f4eb3d03b67145c80fe7678d1bc9c2326d9a3deba7af6c2081ae27184eaaa2 0x0 0x56d217497d9f43d4da1d31bcb976c1524d6f6052dd886caed8a05f7b1dc05f8 (-0x65eab6d0ddf5f431e944304536cdfbb0f725610abd7522bebeaee3b19d9811c);
EDbl 0x568de690133ca63f63c08161d852682fa5696c0ee66bf8f3ec729b6a71bf9741 0x4c48220992e8e64741dcdc433a0e65b43a5bae7f4d743e3d1bfdb123773039e8 0x1ebbc64fd5b3393fba28d00a7e1585f69b87bb0133ffe99e5160a187fcc930a4 0x33d3abaff363417e9166629979f08977fc846c706ee76760cdd548366f40f7ca 0x1517e5601db0083ed73d928efbdb038160fcb16f3ae77dc27c74a6ae7277c726 0x3479e85de6afbe7633a05d969d253ad1a046be5670b75a50ce193b573389564c 0x1681d487de5757c4c4942df9355ec7f269eda509809ef031a6bd170a5a3227b3 0x0 (-0x3678751eb0f689e06ecee007b398747817cba41f0d9426b220b872767cb229a2) (-0xc92133e04828372da0df8376baeb800ce6c9b8611a4de90ab2dd6ab7a988b86);
EDbl 0x3342c4717d55221def46b89fdd237cf4e9528170f9b524bc6e730cc4663403da 0x50676cdf00c935368d54ccf1fa7dd2671cd7ea46686e61fca49dc6a85b6937c5 0x38f64cb010f537ca954ee4716066997f0d75982c9b05561ff6e3472822314335 0x5a446ef613c87e3b4ee38adcea294053d0e1bd97773b73d736dc2ef0d219b522 0x214e224602d34670b994a66b89c2a6d4c36c256adc361db73ff8e7c8afe871ed 0x3a874b212e924850b2806d2c4d51441e95d90e5ba40de0105e745913097706fc 0x2d75d111b246ee3aba139021277becb8fab99eeb45cbfb79702fc59c126bd1d6 0x0 (-0x59d38e6810c1c28d1917c2eb12c6f0c86d3cbd0855596945d0826260f8a77536) (-0x14ebbe9f495974eeb014176e414f08de4ead037f313c5dbf0111838f216b6a26);
EDbl 0x3396978bfc50b33d58eb8dccc52201ef36dfd27b914d8aa86f6ba45d29424d9a 0x5ccf1359113c127dcb9d35bf9107cccb453eac7ca7ddbdabb1d0ca4ac8073393 0x1668aa6c240fff5108397dd8e5d84bd85dee87ab6c7031affbfb2c6ccfe35787 0x6ce783bc361b8a42801d3bb24a3dfeffdea75055a471c661d73a9972b4817ca5 0x567ed950120b8af177e3bdd96465b32780b8c8aa380194b1db3f6d05e49e251e 0x1487575e32650b6f870f84f2a78bbc4e557ae0d777fcee7bfb3a12281497d0f1 0x32819ba8547a9c2e1b5829851151fdf660c07ec1a15dbb421d305a35c8251e44 0x0 (-0x1d89fe907e72d18c14ee59bae01bb37d8a52deef03d78c4a5ad6537c09219e58) (-0x3eb71a68008fe7b3db46e7986446a6e5303e8cd173d7c96f59f45bfd25e02c40);
EDbl 0x3faa2a093a19a02424f65a10955101f4dc015c43b2dfce8e001507abd741b845 0x7a1de10dacfda389ca663b15574bdc8ae8c5b6e7cee647e77b11ddbfc6eb8edc 0x559a4677df22f804f499d304cb3690603e8342959ac35065c567e4a585f3e802 0x22efde5e1d14be385cbd0cd47253acbb3241a98e3dc8dd844c7c3bb15a1495cc 0x4d5597e63df1c633682339cfa71d1c5af3be66f8a3058d1e8714570bd420adb7 0x14cab1ef70948c5f522c18befcf891f8e1dd566f3910d6e22dcfc8ab7a7992ea 0x434afad09fc6c7f872e9ae39cd586ba104d17e1cfd2b919c4b760fe3fd599d71 0x1 (-0x245874ad2a870d1cb5eddc9ce9f30cd306bab3193874cf1d6b36ee327674778d) (-0x49c7a224956ce20f0f839a8146453bd41560b20d4e8eca0dc3caedd003636982);
EDbl 0x30f9cd3076c51c96a9baeda10ec893105d920f022947716064e32717aee8e3c5 0x2caedfaa420120c6711921684f9f5a2b8079045fbf3a4efd7e4fa7bc8cbdb095 0x608ff869dd28d6086177b8852ca2557f2308172d1b8f8178d78ae8f886a71743 0x7990469665d564b871ed6270eac9f8791f3fa885c4b4d1766e97e6910ca166e0 0x19004e2c88ac8eb01075a9ebbe27a2f9fc379158a9254ffd970cfd9885fa4f9d 0x1faa6398cb819c800b762aa084c001e34fdafa147d3c1936326306dd073591ee 0x7480fbfb97a7f84e8483d89b962790c0f5c04d8dfe3a80400c59aa8e2a5e58f0 0x0 (-0x6fe9311fbef7c672b54370623e58442d9eedf4c2259878b26549dacfca05e803) (-0x8ba42f95d02e5970bb058725de7609cfb39d88b61064311e121a671695c8182);
EDbl 0x6070951e96e618be7d750fa819593ecbfe9c26972471ebed72c093714b7e6e90 0x7bb8b8086b2c8f273841de642871dc22c7adb51944d64304c0fe5f4c1d3e6689 0x527b608c3c23aca4db3bfd2a236150ef054f22767cb87d05b5c2e74efd19f1d5 0x4b99b9c91c5dfa337a968fb7f0c70b8f3a13761014840dcf887d0c81bf2f2917 0x791e593ce03a4d8e9f5a928dcd65baa034c4539997cb90c9d2ba2532c215372f 0x12bd4165f28f3b1d1b1532672e23c3eadd7fb478ea95560b289cdedd3d8bf254 0xf9928aeab185a0cec806e49b59e54c8be2f0d242dc55234b438112807a6bbea 0x1 0x390fbb3624cc34475633c15a25997f807010a245a390066b68cfd4d912cf4dd6 (-0x7511f3845e90f8f4f1d297d3c9f55dcae7cdbe5e8535f874e6083bae64de05e5);
EDbl 0x1ec0eb040164dd81f57ebc3a26c3e8606154303a1e5de3af27b1afd99d27703d 0x3df62c38b3077c694268ed7aae9a3329999e190eb81f07326e5cc3a1d1a42cda 0x247e13bb11bd747d18c068ab7fc5e64c22ef4a0fa29bb681d54dd084ba993bbd 0x4c65385aa2b309ae0ca9147a525e27f7b5bbeea9018e68b72b5e7ab5e3066e61 0x27e7249f90f59530f3e8abced29841ab92cca4995ef2b2355610aa31286d32a4 0x48a942b3859a766828e721564aeab01a9ed0fda097477227692e801d3a5fa3ef 0x77960c424ec5f7e8cbbf8a44e2695608091eac1725d0f6572f511734e558e4b0 0x0 (-0xb0d86703ec05a8c7d1df65686c66a00e66e5f5774fb06895991871270d0d3fbc) (-0x1350e5778f46135bc6479e6923651effed67350d4a741a81470c79c73c92ea1a);
EDbl 0x1924416956ea2c1269062588569b18178011ea7cba1a3266284f48aa01d5a90f 0xc8e28127b7dcdd206fb6fee96eb88cfc7db7319826ac8cdb8b1fb8adaf021de 0x659372765c3b8b43cf4716b2d5c09ec77bd4c2cb776d44eead78aef29744a046 0x5d51b6a039ad5c9cfe7497c80de2d9d659d9a0fdc27c21d6be8679a93dc7b438 0x77be4429dd71d1592f2d811538223b0ede04de324b0edce8110dcab6a68313df 0x76390ec9c2c2babe49ed0ee45ea434363ff596ca00751bc0fb3a9e23b0660ef 0x1dfe7b9813da5b8d4e5f6fd2773b3fc294e4c006c1f45e573f3a57350aa9e59c 0x1 (-0x64116c2861a76ee006e43066d21620a87554155a266436db917db3f1bf861bf) (-0xbbed2f44ac986d550528e899a884a741e5a2d14902f0f2380ff489c519b6b34);
EDbl 0x2898ffaab663ed49ec57038cecd898fb84076bf49bf6f5c4403aff28ce974493 0x94f3b96ab6c9477e759d6bcb9934557e613a0f4fa4fb6c6f4b3bc46f335163d 0x2ce81dc490b225b1f1d498b3c3f6cb574716ab75bc7d655dab027d23f4ba0eca 0x2482eee7ae65a9a20d858f490d9f258f16195abc56d6564dc06cd83b5acc4e2e 0x779ad1231db383f01bb0f69549a85a37cf02af469a58f0f0156a5b1766123f51 0x4f033d212a1afe6a358d29eda56440cdebbdd7ed27984ac3626beb6e61c9793 0x13b45646cb52591de780d8120ec92dd9e395d7d7373c6128892cc1a6851c0ee 0x1 0x2100b3a6760e81e350d8eaf7cc629dc16072e635869c3b0673f60bd940da539b (-0x8b2ebefb1c481aa488e1523f1d90224b53f523e45a9fe033b351d40c61f6897);
EDbl 0x34e2ddf5115701105d5d590f6617ccd7716c01b247948470c1514f12016bf75a 0x1bdaea88b78eb71777558f7452cd868e6d7fc33a0f85c3d2038bac585c1fd926 0x34fe7d475785bf217e97a42fc46a638a8b0cbd7fea2b919e2b59f7c1a92c0748 0x3f27ba32d085db62e89da98b91d9a06a8b06012ebdc95b5c0225ffb1dafb8023 0xa293ceb79001c416a06055bcd6f3cdffff943aed39dc9bdd6cc07f031cf78db 0xce056abe61ab405660cffb3fa55c2a2690c07642b673e66af96197a44ea4b85 0xad556cd9d4764ae57930303c43359cd6072cf329bded8d686d131c69916b3e 0x0 (-0x1b5036e56fe38efc494a81325932b1dabc108e3bebdcaa62d4457c91cdc2650) (-0x23613b3aa5196ebbdbe91f1974f27bda9cbc49329a169f3e57b7022082ced05);
EDbl 0x4cb56bd83d7bb25558c34ece98dd878ca5fe850aa79f4bf656269fedfe165cc8 0x5d1f6fb463251914535bd81a9f9a8aea4d5ea5309b86c4eb8fb4a7fa15a03865 0x547215f6ad0cf8f248d2b522096fe2db79f2355b26ef3bd2952b1c8af5d746 0x5092030fd1f80febcdbbb2cd367aea356645f9e6054880f3ca75aa34f4bd4fc8 0x503d90f9db4b02f2db72e01814717a528acc07b0aa2191b7f7e07f1869c77882 0x15d9e670685e012de0bb76768d43f011a045e8e19bdf5cafef405bd76d9e0e16 0x60fd15a3cdde486723424ca7ca97052b31a6fd1fa8ec63e91e9cf94ce98d5cc 0x0 0x1911ac887dc2f085d977b0067d854f19d273733ddaa2c838a4ffd1a748927b38 (-0x3a6070451e4b077c8453b78b41d29293a0839051d8a6a21fdce85ec1701e3a06);
EDbl 0x49761c57ce3c8c4f1435d495903e2f536f3be3712e76af8d0b5a8b7d1ebc8fac 0x3225035e1065094ef32d7f3e7a6f8ff2748025f96e0c0b44eb35576b61e150a8 0xa53b56d6866f06ccc9626c50013e03354270489d3539309e881b4f87b4bf281 0x1876796a7d5013578d6fd8c24ba7874708f807461f21efd359f22aecf2a013c6 0xe22c3fd14e922eac0d9b1fd4b93a713b4d102bc4bce5cc9717075f477542145 0x2df87134236db9b41fefe3e55dd11a905c0e3adec28a5276b97d1c3ddeb322db 0x43bfb60a9cedc8952b9b0dcd0f8c0f94ef2eb41a9d9f5fa9426622a3770cd3ff 0x0 (-0x67806f8501b188feb789a1eb4c441fe86c6b1e59b65797a2d3ef546566b67bc4) (-0x589aafab7427a560f59d1bbe822c6cc1053a09c91ae2c7fa19a854e98ecf55b);
EDbl 0x654b39f4650804bfb7c76a3d254377050002240e2f794f8de21de5640fdc60a9 0x50ce7be2f1011218849a34ce62654414a8dcaea8b4db9b45dce3b76a6b121996 0x4aa2b94850f119a0cd2423515c1f28cd3af7a6f06cbfe70a06a3c7d26b1858fb 0x657724a3da0ee18efbd6ccb6cfe1de6c8a25a8e62789cd5c70a5de619ec7195e 0x1ad46b5b891dc7ee2eb2a96573c2b59f4f2e01f5bac9e6526a02168f33aec063 0x2a2925506f67f62308d6fe543f74aed7211c1bc70520b6a32e33e47d32d56849 0x13a4f5556f471793e28f13261aa030f6b2560a07cf6db153142190a89a00b82a 0x0 (-0x245360f789c53bad113b8dfc100b01e006dd8d6fa99b7840ed4d90d0c60cf359) (-0x10f00aedadbef7d988d0394730f7cfe87cf3e3af81fe3eeeb609c30d3d37990b);
EDbl 0x91605b338ea1bd98bdfae06ba25bd540525a3b02efa65df30de5c6e8c637d0f 0x1df405521e9a2232baf654aa3d2f66bdd6d57fd5bac96f5aa5f8ad2864bf8cc7 0x60cec426408621e816fe5c1c0fbba17f6c4b4d8dc0be4b9ff98d02b1ec7cb6a 0x12b75091e017c6436d14605d930c31329ecebd9256ff4e39d1ba5c82e6db7e77 0xcaa644f7c0f6424eba47a9bd210771aa80a08b97af3697fd2218c57c813b30d 0x5028e3abb4148980c13d93f26784686b412b06004a16392ee5a4b444afaca9e3 0x330367f2e7a0cb9bc5009fef2f981432a9cefbd68ab53d78f155b7086a7c0b81 0x0 (-0x7efeadc0932f0928c11a6b75e66a9b9f6b7a1b26b150ff3b9304f769da3f734d) (-0x2f6c01001ba87b0eff331c70c43daa8543d469578f6ec162d8d121f25ae2f66);
EDbl 0x4606fdec56d46970938a8f9fa5f24624f5b9c6f488b72cb1fc87e4feebbb1faa 0xf00d9e6656d8243e0350fa5b89beefa58e9af955ed650a6d90cce344ecf664e 0x20a711cddcb9251069a940072480fd35d66a7f8dc9e819bec2cd2bafc74291f4 0x4f8d643821b4f2ea9ec64cde01f5bab7b3c6a227a65d20eaf34655f4b4880c0 0x6451c475a5622a1e404324c6bb9e5e75a4d1ea94b07db84fec6739af8405eeb9 0xa51c9729dd77c7bcb4f149a78ae7cdde1b012f1d18f1de9ec2353a99b6c901 0x702639d7f2b2234a5992abcd1d4e60556b20bbdc04f4a79343410a006276195 0x1 0x32a192fc130107be9d7f54b96e24c2b5567b7894c37389f88c8f1c7525e319a8 (-0xbc23fccfadc4f73820e1fe948db15a5b122bf2ee11fb37f1280819658586f8e);
EDbl 0x4339fa86a23242851a16afc3ab05b352a7b4bf53599a49dd7e29d364fc3a757b 0x6d07cc3462bae9160bbebb997510817040767faa9dbd13f158a5fe8a63a34b0e 0x55ad74fa7767e2eaf5af3582d1a8d441b34c08dca51b6088b4f9d9a8cfc1ff87 0x5a008f994acdcfd60d50ba564ce6c5de31eb72e21224577c2b4f17f596fe2140 0x4531a9ed365eceb17a184d37b3df19c7e9f6a056d08f6f376553e4cc73c21b9 0x264fa61c44da72dd1eea06a0c533453122e85b018a3e44362426e6b499f90531 0x1c2331372b679240825e70ffd0247fd0925ba41f602ee6ac2ace48571e4a014 0x0 (-0xe251c87579012aad85d950a1210f0c54ec39ec2c5e1132b130a15c85628e4e9) (-0x3af081cec3a3dc7c7c242b4446c16b9cb96a852b27baec94bbd54e2e30799cd);
EDbl 0x62332ee4f8ee5e56398dd304eca6ffbcde556467ba2c0d5fabb64e9736c701eb 0x3e1bfb3c0218cf9f7e6a2f47f179f29b0ad68235929b4921fda74bc89fb8ef65 0x2d503c0e07fcb12f1c910a399f4948257694eceff90c541b1118f6f150bb3b4f 0x4da695a0fb589a4b512e35dc85d4fd1ac75cc9e006b63c2fdfece49ea03c11ad 0x20565992f35be91c349d2ba2e68bb4f550c7dcf00da9e814ced3edad4f80d65e 0x234ecc87fc0b899750757ce9a3fa3a7ad1153a3649c93b0a1a84cde7e13707b2 0x5cdf4842d3a8318f55650d90339af437aeec64a36b06467bfe883c7d888c2693 0x0 (-0x59b7e4af7491ede2fbbf1c943df47caa608762cd8796d192b9db49d063551092) (-0xfb0e5128f879e702b0b9d48c594bbdc9aa70ef486e31628a8a26b9738939768);
EDbl 0x7b9e0081b2e20f4f3d3f6d57f7bf977b2f192142a2a9e40b1aacd15140c88b2f 0x93854716ef9794d2057036ff3f97da686fa3a1784c42279e8abf1fcc42b858c 0x614f3ae13f00264ccd4f345f035fdfe3fcdee5cbc2055a36adba113ed7d33d25 0x266a595da1db2267be917c55a1ab051995a628bec0acb33568ed5ea41cb8cd15 0x451b1e7c62dafc1af14247f69e4b253598c742f2fea758febb334d6544e58fdd 0x4b5674460cd18aeb3df27e23e06a1009a76da1bb198725fa444fe59b09b55864 0x1e2321800c765ff55f512734c1cbd9dd29cdcabc728a6fadbe5477c83123f354 0x1 (-0x1c8f27773a6ca1a717c4a82acacf2d3deb8b44d0eeb1f6622e3ee9e5062f0ee7) (-0x4fa51991f3b2ea8a508a10041c4caa99a86225e6dc63d55e323803ecdb46536);
EDbl 0x7ecfa6b215265291f32d21771e88699aac3133fdb93ef3a479f95e2fa8742940 0x10958b5cdaf36afe557b7e60184207ce6d81883edf035bea63cb7da46c4720c6 0x5263922bd8c57433d7809df87b2036bf52db88af2ec02c0d4519f250c9025bab 0x48b5e3a283080ac1392727b0d6ccbcec87ae032016aeb18f7a45695c8de5205 0x3227cc0e4f6b0c783c11d482924c950f759f5782d2aabf0bb28a6444ffdbf647 0x77626c0283fc96ed9efa4044e925b0ed71b7ca6b31e5bbb87bc1cd5cb619980e 0xaa04aa0e917586bbee9df50104f1ead45f45c3d52e7481cb022a7a2c1d3d57 0x1 0x1fe1851e50f4d04dbc37b99daee55267963c936ea5e8aa06dcaeca8f9c0201b8 (-0x67f9270ec9331b53fd45cdd57e4fe834666e281c23103ae533247b7e01bf586);
EDbl 0x6bda13918dcbaf8529d6326ae7a9c278b72417c2188c5ea4f062fc50639295fb 0x2c3fa803b162ee887d0d97a6734866f992f846625f314117075da54bb6c20a36 0x2f90bb7490cdbe8c410032081f7cd48403eecdd004136204df8da93305959903 0x4feca393cc8552c7b1f38c59bfdc0f3bc28317fc38116af789d98719fae151ea 0x205be81f3bb7943b70f35a51a05f3ab7be944a2c33fe08f2aa4bdde6f54bb8e7 0x7da2210c9ab6b920a30e3315456c3360587171ed762cde3c4a97ba9230ae5151 0x226118e42a688598e4f05b8400fc8cb3bd7180b11ae1b3ca25cf3af24ad38e2 0x0 (-0x59843bbb4bb5b60d66bff78b0f1dae6280738cf30ba1cd334251a0dc844c92f) (-0xb2faf808b8f08120a4c34919d940679676d909d7c3cd80dbff2142163691cc7);
EDbl 0x19af956d2b5b4ac28b0c67889f19ad66a40f4bca1625e2007963e8a98a70b14a 0x5e228bb5fbae687754307287833c3245a1ab34684a5a69174f72b460ccb69d8b 0x28d2bfc067ebe5253a8a1eaef4e74abde96a3a3f0edad715f298c801084b9ff7 0x172ea4579948f992a1858b6fb2a90b5f81e380a1f86b19db3121ba47d6cf9fd3 0x6e5be497315d146d66fb6cc0bdc1c0a198794662e99042c53e88f246ce83ffc9 0x5ae00c4203d962dcd631d2d5e2f225c5a1db1fc89fa7a05b3ce26e45f90f3c6a 0xf4be32aca20531f9cf1d075b9308349b921e1fc42bc17b7b07374afc47355b5 0x1 (-0x346bde24db348a314bf900b47f925f5c38b822733e59072b1a306bea58505eb2) (-0x512944bc7195765d6a90bfa886b7f8109edb82065667a5e2d357168b235cba53);
EDbl 0x45bf322997c4469aac6d1e4251fb3490e60e7c0cd5cdd6f5cfb9bbc53587b9f1 0x529d884884075753fd9a2f9ba021ff427fea7b9773f0d4885da5edc024c69e66 0x4523f852005c34f307782b8e77e2244af5b20f1abd73758bc0f882706f26ffad 0x4d7b02594858c68d3e08a8727ad4cca0ae244f5d568b821013a3ff183ccf6217 0x8570a0747fc919a36907ce402f2a855b872404299180c8452ab7ca7cda8626a 0x5278739e9e2bce0da7ce4c157979cb069b1155d2522d0663a90c4f25eed73b3 0x453ac6861ad41f71460d6d9f8a5d9707308c72add3f3fe5aaf23844a0453c4aa 0x0 (-0x213c604482705702393e9b9db34455aa1e33779b863f716400c1436d80b5ae9a) (-0x56206102b43b670eb4b2d355d887529be7d5116cacf709043f27f159dfcf584);
EDbl 0x39632228d7d1471800e549128f91a680c9a64e37ae27d919a2609ce21522c607 0x6f59557cabbd86e8e4d546e2aae6ac26b27b671ebd049539991e9ef27e00e2e8 0x3ff681551e85656f136e27af7e890cf1bf9f857b12b51a7a191870ec9de81450 0xbbb55d0426f46a4c7d36cc8aad3fd03c2feb7269de19e117cdcbd03cb8e87a3 0x4bc4d47b23e9e135b46545192c4af012035f31ab8b2c839763c44c172da67340 0x26013fac9f6915f6bc588f9ed34e19f62aebca756bef24895ce59da27bd326b5 0x3552987dcc278b8a80fb892a2562c8b86a1fdfd435e5a6397cad91c19032c2e5 0x1 (-0x381050be071f69374bd32614db7aca4e2999fb715c910bcaa04de9005d82e4fc) (-0x41e991b908348b696e5b7320d7a655505712953bb63827c2d59e8a640a35464f);
EDbl 0x4da4821314574d4fed4dcf692c8b15b99b73f13633210333ce7871359b6e6424 0x314016034673d2d20529bc93a2dab6e462bcb5f66e1f4a6bf2170759a40a6e65 0x5b0529a61e6810ff597a18691bbfa26c073456bc8a90f53471c0966dfdebccc9 0x1bc1543cfd8a2027222cdd2464ff2cacf7a93b851aa3153777a7696cb1265b31 0x40bc2a96df220f27c8b2c4bb493f8a40f074e4c89012200305e6d2feb33a8e55 0x19ba97334081fabad661283ae39529330c444278642ebfc62d43900b8f6a2808 0x60dd2e9d54539710e5904fc58c5b03989f94eb0a40e153033b727b8c9b5ebb6b 0x1 (-0x3c93a543b588d9abc8d1a96c43c0a72ef61e67501622da04770c0b1444c5e42c) (-0x18e871850c3703af96e4edeb63fc07c79520169f3f793efc437e87703205ca7d);
EDbl 0x22423cb8e82129da6655d94354181feb5b1c789806240b135c4da1bd156d734c 0x627dcf9be9be798eb639f6b776ce9ef34573c7a7f1d1ed220b1a23156f08cdb4 0x2be84bed5381400358dfe793c4391bf44bbe6cef2e5c858a6a529be596bba5cf 0x1d27f0ccfbbe554bcd3576cb9711bb94c1d3b96cbe35a1c22dc5f0e0011a7689 0x713fa4dfa83d154874558f37d2d89fa076154c7d8fd91c37c37354fa6a5ed0a7 0x2f18bfecc98bece3a8828662c901f23fca7e34d1271143cb715f8001ac3e4a25 0x12f330f089004188e2a64920155b4c6ec86ea8da0368683b04b21ee21815a890 0x1 (-0x1d7030775a62c438734a71306bbef6e896b7bea8119f401ef79239b01e50f2a4) (-0x57240a111dbac8ff0e2316b3c624ce00454965cdf5d98fff209e5f288f2bf34c);
EDbl 0x4230253b946f9c176ea49e7fe2b913a35738999750b1e21555104dcab320bb4 0x4db9dd92f8d939e6e4d0b0245ef57a62d793b173e977b8fa69558741d1e5afc 0x2ee27a14d148ffe66b55154ebb4e146559bdc33e43f2c7ccb800ee48ad8aad79 0x4c3eed2ec70df50db3fc0f9f47dfa4b26746c7beba31c493ca68852b1d1afe38 0x1d5c7319f5c4f52748a6fa508c91904d0d890480763efcc7126796e26f9050bf 0x92b5288f6cf652b4b247819d9dea04a53608ab0956cf5388c69e47091d62c93 0x4bc9218f8b2b3815c71534007d23c97643acdd46e7486752c66bbb8614736eb8 0x0 (-0x33c5da127f8215db4bbfe68b39f4de721c069d6a81451eacfaa52a90f8bba364) (-0x11d43faf4ea0c11be87618cd32127c4c5af12735975d92985978cab83c6dd11);
EDbl 0x63b06e648bf7aa8e8bbf75c0f3e0bc5d438683b063be9f4f09de91589756d7c0 0x1b17d88ed99541bf1b2cfd50b7d4d87ffd627bb708d0c2445c68249be08bae16 0x3c27e5a07d9af278ec8fb17667f842bc70f497aaaea3bf8981cd36848361c5a9 0x69697e6053dc4fa45435a4f58ddc0aa5e65e5ca635df20e67f9df7a9594ff682 0x2d4198bfd6415d2b67a5f37f25e3c7e97569c4fb873b615cfdd0c124d5ee30d9 0x2239b8816896fa3944f0aac393f6aa0d35a9fafb7ab3b0dbd7fa4d214a91a3 0x2f32ac78cfcad9a4da011508ab6b0220eadcbbeb0a364821bb485f4e34ba06 0x0 0x22eebb3935ef957388b010b3a7ba6e5fce6b5f890ad227850cc0aafa9fc1b8e0 (-0x99444931d217255ccff8babb5fbba8f02900c5c5697b677d8685baf46420c99);
EDbl 0xb2cea0029ee963c0034b61bf19e384435f14554a7d297b5144838c38e375586 0x47ea95da28d39aaade5edb8ed941c687603cfdd1508776e96d6683199e99daea 0x6ee0c80b5b0504cd93155c69ef13f623b87a941a7a13c7814318c86854149ec6 0x4e3c724d29438c3dade7cd8c913ddbb5b046d6cc393983d531ae69bc42d1fe7c 0x5f5baa41ce3e87701ad27122a229e591f7cc42b1bf25bc53ee95a153eebd5fa3 0x4da3ddf37c3924768159bd3872545aaa585671e4334c51a34e21f7cfe7394ae2 0x5bc13cd8583e72433105bbc642757ea485d9a9d381ce02eaec6aadab28e1c08 0x1 (-0x21e03cd42d4c16d45f783dc68410e80acfef3d46837fd37e9c2388ef7f535fa6) (-0x35939ba6fb6c9520a12564ba8b6b34e2150291f077acb516ff509bfecf8b5c9c);
EDbl 0x6e3d157d1cd96bb4ed4cb069497e6041334d698b1640a59a44a45cde613aabd 0x72f5ce3c9ce0c93d9339b91978f1d9c688b56b3a3850627c7d7f93c427456c7a 0x2a87c6a88d47edc07b6dc5e977ea364a2188b2fcd616b9f1d6d42dca622d687c 0x7adf7bf8356f948a71e14877e5dccad53cf0dbd7f1b89643933b10a642240dab 0x5057b54fa827a6c9f673828e6df2948b1b6828db1ba1dc51bc66e2dbdff6a52f 0xf9c7fa931a6f29fc5129408a2abf27c0d421a39ec0ae3adfeef040d5ca7b48 0x2867ec2a9a5f6022d150889af6c8363ec95090cbfc3bc6a728f80761ca468ffd 0x0 (-0x83bae88cb84d68a8ac36c5204ec826ef7cdf2ef2e201ea4ebaa4cac9e6fa9b9) (-0x482866cf2f9c592e8256dcd191169a70c703e37504960df6b91866f52b11e2dd);
EDbl 0x1f13202c95083f854583ff4cda13ef4b1e745a880460850e59e22c567d23ea24 0x66336d356c381b7ef21109e7fdfd7ffa0085087eb55c4778ad42025c90275f48 0x37bd52ad1bbbcb1adeaca3bc272f3efb53fdb94df0321fe211911d353183a44f 0x2dc5c46cf1d9eb3a04be8d1588a9cd56671fd0f9b7ff5bd6e8f60aa525749b19 0x760871bfd61e201f2611e959617a8e5b132217abc7cd3bf4d764ed6ff3f0f6b7 0x5ef11a158870b81b56cc47f8723dfd525c6e2c2e74d4c63a1ac28983fa6ce2 0x673faf64c3c4289f68b6bb91719ccc215cdd9c41ad1d542e544373e470173bd7 0x1 0x10476b42eee9c8caf1bedff1fa0b2a8a37ac31e51f66358879a10991776f6ef8 (-0x5e3e26b6a536a46466b07a00ff57cf3b64acebf0db018c907e4a4d59032a3890);
EDbl 0x1d4e70e7fa35c13ec61efe8d7b8ae9e621144c1eb2454c350920e4ac81360393 0x7b2807a91ce09ff20a518d85be729e118ae448b51763e880abd15795ddc22e61 0x317902e7989c1a4efbb8a56dadf9df110d5a48234e1dd724380b1203c55754a4 0x667e6beac8c215c1ccbc07cb5afddd633e3e13117ab2db3c8190e33f79b0a939 0x350569033025fb72d103625dad03fe5230e3caee2c9504184985d13bb4595495 0x78b46712d829742ac3015a524de11c2b3182e9ae6a87a0a2a0954be75f73c9c 0x519a0ab68838bb23c3bdcdc16a1e5650330c08da6a2313d6b62ee48a1f116043 0x0 (-0x257bbbafaa14e98a56ff06daf19de62f738b0435568fc5ac20b519da81ef6a55) (-0x3303c7c63a1c990801b01c2a5427012145d6414b13b93eda67cf951370d12fd0);
EDbl 0x4c27afff3c45f32c952d3984e14e29a098e685c9c2e723e5fc8047ae60b7e824 0x5f2c99e6526dc87d95f11eb626c29c3a90d0be1e51a4c49e5bbabd114bf5a66b 0x5003bb38ef717cd92ee0f67c8c38d48a2aca63c2fbbe01b7acbbcd4a06e7c3ca 0x7c3723b0b6643e89d07819542d74c6e93df3901246cc078817e7602ebb76eb07 0x2c336877c6f2c1b0a19722d7a13bf25f13292c4f4b0e05d06b2b92e4b48f273d 0x6b5bb3b1bb0e75d0b94ebd80f6472686a3e9517d7222e09630b0917b426433b 0x767efb3dcda71e5ffc43d36423f48c176a11eb2da0a9d951857766a05d5ef162 0x0 (-0x1e18db0f0be37fdccec6859ba7a1dffc3ca0a0beaa0eb64642456935b5db61da) (-0x20dd8e59ca8a4a2ab70817fbc8b81305d9bac2a13ca2e4f9eb0a972e5fe39d22);
EAdd 0x6e64e5552b88e48f8ab3c1be8cc36053b0e6ec0831ecbce6fbe2fd29680c969a 0x383c510fa4cb58be6a9dfc9339b85145363911589ec5521025352a647bafd09b 0xc0893c67be8e8ac4fddfefdb4c6a700a26fcd73b421650bb81b96c4b0b8b49a 0x7f56e1850ebe39fe118db22b523549c873da31b1daea36e5162efda76ff7b84e 0x4cac10da31d1f0eb91b0e94ee1b9070054cea837eebd9337dbe6548b0840d3e9 0x3d7dfd6b69e45549cbcb2632b6e017cae6b79c098c9236a1fc6969f01858ba64 0x13e0d48ceece7a312a4be6e9f00462f8781c86690d32bba909cebe69894cb186 0x4c23ae51db8b06cade5a7ef81f02169540a6fe7ea7b703b1e2fbca743cc48522 0x7b5d11c3ebfc31f76848bb6063c40e88b310b9c0bcb122d3ce16df7099a4c19 0x4c46c369f9459860174114dde1d6e889f82ef5ce77df84c3ca7b6dbf8d7231c2 (-0x20bb897180b8b5f02f5d6a9f627827b9af49539219eacdef63fec33e377e89ec) (-0x1b0418df06fa5114caf7d6ed1041496cdb3adc3f1fba21c5866f26c400d07d1d);
EDbl 0x655bb5ca314a7e2346f7896f50f3a0f4b83647cf80e5bcd0bf7f35ce7fdec499 0x20f486aa7d4091f322075dc1654fb220af4386bf06e5ff04ef74d5ead3313afb 0x7d7dd7f7f745359476769c1619b84f96b4b9567b250475d91aecb404fc1915fa 0x10b230b805d4d7c8c4a1269a3883f823bfabfb2922bd5c796f901d475278311c 0x133458c00e8fa2344e2a8a841ecba88d0af2a4adfdb8e6a054a36942565f1b0f 0x5f35b9b252ca472d891d64c55dfe62d5009f67f377fcdce818ca69ab3b36c012 0x18b4e359e2323ac49ff2532237eeddac0e65802e0de79f5dfbfd925e14588611 0x1 (-0x51cb428f348ee535d9ef6c15166f9ff901d160754d1ca361b7704703ca290df9) (-0x4f1c62d92f96769b1166ed8e0f548a0a1376543daa91ccd02108d4cecb6cd89);
EDbl 0x6f74b17702a52b46d272a98a0fc7ed4326826ac719d2e86d00bc54bb1079321b 0x5b65c7fc4d7ed02c667f72e5edd20d1ff2aa053c2b584dda59a13834dcaec477 0x38876f9cdded8f4419cc7d841cb063fac9808afa32c86e8d762bbd344b5898e4 0x6a2542a83064cb692a266f9bd68ac76d66937d24b6c182270cf5a73447c5036a 0x319dd30b52773c251059f217b9da63729d12f22a83f9139996c9e9fffc6c6a86 0x5042fc989376b7c558fca4d47b6d3d9402cec214a0b340bcf007bf5f19f2a121 0x87c1677364ba87a5f9e65a96bdb2022d59690429e0a4ce161a342d2e3957d8b 0x0 (-0x8fd04fabebc48f813edfe7afb52bd2bb5cc724bba5e99edd3158a963acb4af4) (-0x236da817be6d0859c4cde63ba2cea8e04dd29db4a75e78db6a73df983938d512);
EAdd 0x7ea78304507728dd99f0086fb9e090c5967f5f6a9c5d8fca0a1ec954baea07cb 0x754069dc0e577bbaa4e6e641df716fef040ad634ffe944b8a97b3eb227cdd25f 0x67b00b234231dc305b7b1efcb23e9a9fcc421869c3c8e4be5369158bf5653f5e 0x2f849ffd0acbd9bd1ecc5beb24a80a7ff554d0fcef79d7e1e14dc690b08bd063 0x78a456ea169170cbe06da822fc46e5035713f7cb01e7c5b13603ba2407770e6f 0x76356b72613509be93230a2ffd23e9859794ef7e16a1d20194a5d2fdd5f7b44d 0x1d17b337ea6a759667c62718611372fe5ac9506b6b9d2181dba4a4a48864fbe0 0x491e3996a4657356b865f584be41a4198eee6a968913717b7ae7602a4a2569f9 0x426f8d805125d029bb59502e7d919ce4bf846274caeaacf71792ce27628f08b7 0x2cc9582e38a838c5704960e09995505e83941bdeff3a601431179d869519ff20 0x3f1c2afc09097c1fd8e98e6a657b1c7a41c100470b1512d12d74112136dc7ec (-0x6c4850af513e3814e478461cb8a3f10e9a0828773483f8a0dd20404a25b43f29);
EDbl 0x2a43c009484b1faaf8dede6f6fe34d7fa6748fc3f5026e350d124f34823d3f0b 0x3859dc451e6c19be1d7aa2a00dccafda2c2b74c58bf065827d8cdf29dcfe3f77 0x4266a67aa7234f368714f8595a11b740328ba42fe66e1392fcd5f5e41107572a 0x20e8e1f45fa1b55696b586c26c40c556893748e30e9755aa4168928dfa0b1850 0x5e823b79b87e66200fa08e69122f0e1656aba4b32829421744929ca9e903c113 0x7d52a528e3c7643c0afbc5e5f3429f29b197d3661aa31760faaeb1564124232b 0x6b67e1f07dd2c785c56dead3d73ad86a546e68cc83a0b854ed25e05c8c947a95 0x1 (-0xc8d4f30bf091fdd2c7e6cd9d2fc89bb3b390180dc2ecbaf59c2bb9dd3030961d) (-0x299b53357a3d301c416eab0edcae7ef711e491daf6417940fe454c84ec769cc5);
EDbl 0x28e5aeef868576117d40fba6d18148a6057ad9fbe8de8d038e2742ded97176f5 0x5b43a4a02f8caf711a26c0bef6bb06a23c670402778b076de5637978022a0142 0x1c3f444cb80485884f2c9085a79446f448f2c2a0c92190d5b49300f6dd2ae0f4 0x7629d5061b66a9a62d92c5f9de2c1e8f75189c8bdb38bba2a4c56ea3f9fa373d 0x59ea90b96362241dde6635743697d79b2c25d9eb12172accf0326dad1ccf5649 0xdf499e24144d4fb0cb4d9a914e7f87b7b69636ed26fe55fd443121873b48cf9 0x18cedfd245caa2c092709a801db46792d629953b849d1319074125d6b529cfe4 0x0 (-0x87bf9f1bb7c55be5606de4717c911dfc60e5f78def6836f4c1147b70bc51031) (-0x401c47509dbb2f0e9f45525c8e0e460b62f3105f578f22470acc6f5a02dd2d9b);
EAdd 0x14f0a3130b63e7d407bca19545596c314e5ada1000f546c4723a3f18ff3d1c43 0xb27a392e023212925f640d90ee0cd8e689a7ab75c62b50e3d64a85b856cfead 0x476af5d29fe89a2d71fd3b5b61a1861d25203cd99108a41d6704defa8e8c71c0 0x15cfb6e68c708c5a7b5233cbf8959ee83052699b92d59f8b1de92df99b54cdd6 0x7a0abf4d50c7672fed7603d966b8df623d1c06d6040799c804c0b76e0cac6f5b 0x2b86472bce17673a3ad8e0e2eef847b969b70385aafc523ec96b05414b7d6b8a 0xaacd507d33947e7b280852337bece7343f179e875b1ff83e9a11d5a5116146a 0x4902ea19bfa3bf8dae8566ff2bc8d21b63859ccec608d2be511c612cce880102 0x2dc26ec3d3e7f814f77db3d38d4a054c762f534c010f3368e6d9ba0423cc86d9 0x14cbcf27278217a563dd7f65981f5b96dcec804a610ff9e11280679c431f2ea8 (-0x316b65d42788dc53a4a1c744319c19048d4148bf68a989461b3b368c3ae2e257) (-0x3cb04a66310b2f40fda69a9e47fe2710dbc19db86b6c2b397958d2241342a77);
EDbl 0x4ed814c2625c1d7c498584c5334f25112f75f78987bd7829231382e2806c971d 0x4a9a3618c69708b3a0ebb4933eb7cf41ff12ad1b7c3b877733d06694ae7cee74 0x7b15ef78af386e7e34b6328882501779b92611e341a29d172070cdd7065fb59c 0x529b33ba84e7bfa3238937e2240e382b3b0cc0c4989b17379ee4b76162950b06 0x57854441d5af5124eed30559a1be20b181e6aee156f87a207e73e98a5c355557 0x36cf75a4abc72ef72a44655fe2934cb8ad44c61792a984b09b24d2da2989401 0xf8dc63bd0f5a7d98ace576c9b65fd0ba588add8654d9e428c2a3dc687cb30f 0x1 0x3242a07d7607d447d02ea07d4802e28b9c5d26b297a1f39090bb084e1ee6bee1 (-0x33027cc958506f14847ab7e0644def2fd359d7740e4cec42bf6434b45fea14fe);
EDbl 0x1e373a295065164c990f578e283d6f23959bb3424c140f2d52cd35bb257a46a 0x5cf09fbd15c1e9cceb314e601d2256c269412f5528c64f593a519f237ee18d40 0x68cf2d99ce8b617be069da0c9235f64b1abfc01206fa6b030044e886eb61a8b3 0x3666f3acdc3fc7da6bcf7740c1922401efb5ee6df74403ffc116fdbc35ce91c1 0x4d97c6130db4665e8b659d342f5c2db6d4f62e5bf04998fcc0d215354a6ce8fb 0x3090c612fb4a20c239186399c056a3523e7611520a1ba506123a6a1cf375642e 0x2b7b0856e81969d7be62883a3dd3b9098b17d11573e3fdeef645ef7feddbee2b 0x1 (-0x5ac2c1c9366186359b9d0ba28cb55c134adcea8510aaa16f5cd9d7b9892ab482) (-0x3856f3c63ce9f20e80fe29a7f721ec700436c61811e62ada3cd2276baea75604);
EDbl 0x5a20eaa3c802b70a60d1a119fd2cf6e5b3ee36a23892f4a5f6786ecec3ae4cda 0x1aeda82bf672705db81cd6709959b00126a458144927b65a421b4831f3b98911 0x52fd4b1ac73d1a75f69b2154ded2e174d1d2e320600806180823c451b070bcea 0x26d38d17a633d6fba3e7769dc2bf7896029bedd515b6386173b2dc3418873f89 0x53d641fcdef6bc85ad4c5548e3ec972130c90ab4b5ae32496b8f17e26816828c 0x721fb17739df784610919b6ca4b888942c4d1e17290cbea1ca3b36d6917a2 0x437ba9f79bb130a357bb298114cf986aeb5997531aba420842b1934ff9449d73 0x1 0x384a25c342f26a655041876ef003149181f6e409e99a58e94ab34929b4385418 (-0x11a32e438d7fbdf892c20615b93e312ee9bc70668faff9c828c889f485c97271);
ESub 0x62288a7a7534a20812a32f2e4cf3e6365ca24fdf16486431db159cdec9b28d3c 0x7f30d1f97756d4fd355d922222e8719b3c3249ff45da93b17407f92df152c916 0x16b772ee6bc21e93aebb76c633b9a527059f19375aec844f71ba87de284dd32f 0x7bf153565ec1f37e2ce3dec07aae2667521d13436db95eae9b49068e5c946d98 0x656c6fad595f9e16582288f48fb5d168eb4f9ad5f207e76e2005cd5ce35c901d 0x7cc0899adee67a1a532c0953934a3f4b16e898176489ec61fefa7971e3f8afd0 0x429a588a0e31a80a07748810e584955067abd99f2265b7c02ef7c7c8b556249b 0x158aeceff85b8d17c67d785a1447c000ebb6acdd0752f84834e2a027f62e0740 0xe8e21427c674139c6f6b183b507244205b99368e5ba907700039c389f7fb010 0x62356b83989ee8d0b2d9aa90faed103f01bc19ffb25313a18d0959cb685cc708 0x3aa56d8d306fc488985937c7289d62673acc519d93e479128f94460e40b4d0d (-0x7bf69d60c6c673adf3e0d5bbec1b8b68d182e9835e8334de244bf546a7b495b5);
EDbl 0x46637849cdd4169503febb4a2d918d7e95b39295c7cc5212ef5a4cfee2f06dd4 0x2e7cae0fee35fa4c9087add6945b041d98197b088db6521ef54365d53f26dd9f 0x7787e82db2ebee9f2454ee5d405d510a6a3caed3369e75e91d9cdfe4bec5a523 0x57c55b8e0754756a6d2bf367651f40d75e6fe2cda7213e12b9e2304cfb2441c7 0x603d7360546886cb48d7050a24c1efccf43333fa7082c8299c4550683c5e9c91 0x4b4620e2a5d25ae2f69e1baafd513daa19fcb406c2dd1654e8440c8033716501 0x7e62f349dc5c5fb08070ee80ee05ddb2fa3780ad04727d1d947817386d6d16f1 0x1 (-0x8e26ee2cd8c522a6501ba7f231b4ead37235da50d12bef3f8459a0711528feac) (-0x22f3d3dde6cca5e617ed123bdecde9c8e453492a5b6f1139db7687ea675d8c47);
EDbl 0x3d16275fdfa6c76e6dc7c5a83c4a8ea28e78f37bd92b054247d3854983eb3b 0x7727289b97881177be05b3366e11e65991826f16ec5d1626c36ac731a0007a09 0x25cc53385156bb0a8fc6bed8d4b2cb2a25a6971e53c3730a1acbeaf00703728 0x190c3bd7167887a387cbd2f8d6d220622361e822a888109c625738dbab5eb69 0x7f33fe89ec521cc98f8051420021f5537fdbb510454c49d92478b4deba45b42e 0x26b518dd3c54e941a61cac1928b37887141956a02acb2a3fc5f42fb2df5be508 0x10e2168d9ec7a61a4cb13045b5207e1fa7f23a3707b41176234094d76ad2d7b8 0x1 (-0x32e3e9d2b0ac9e0345cdbec566c379eb196668014bf519e9a3f59974111803f6) (-0x766940d6a6d23b870b90a0567011dc3369c846483b85db08c516f32a35ec4af1);
EDbl 0x4cd2833a234fb683f4d158f60f892ad9dbd57dde83a7912f00a1f3d52cf3acae 0x45248bb18a51f8865df5a257e8a8eae19aee9defcf2a1633695dd3becddfe8bc 0x11f2e147602cc2a314e283b05ee6ffda57251f10b34cd9025152a621198d3402 0x591bbecd09ad61ca3443a2ba1f5ce49a8f6d6c2bf5599ce28726a3df86b30647 0x4728dd85a9809f271f611f09c075e4c038484d1b420cc3e035d3fdbe6d25d245 0x1d27215cf63c8b82f27770143ff24387fbcd7d2f0e3149edd075191b4113 0x6eeadb7c1973533c06232351d4cfe543dc1dca290cd599dec1ac47e379ec20f2 0x0 0x2a4390f5782df30070edb9c56570caef2f0a74445441e964d8bdaa18ed35ebc0 (-0x267058916eee1bb81426ccf61a91c48d7b6fa05064a217ccae4f6dda2a36b7d1);
EDbl 0x33e2635d8be6ad0ae81266077ba47364cbe7f9df0cf0dddb2c591f2ea5ae4ddb 0x38c28d3a351d82050e0f0401d878b51f9983bb182fc3baadcaf900b49eecbddf 0x265bbfa515e6335cc6af0443f79efdd54079e956d16c4ab41309f02173f75cd9 0x1e494e6adf744039795883f3500899c219839d26f277a7cf72528a7b688fede 0x5b88d541981110a6d0e683fb3d618bc6e11e507b9dbb2fc8e41b38864291a1f2 0x2e1b560c273ba0fac74532b6f2aa9b0ecde31b8a39f1ba7f7f358eb2f76df3b7 0x2559710a9572bcb7d0d1c93f9766aec1848402138d230148c0c9c2438b209dba 0x1 (-0x2de469f36b34c98f77e012402720f966ec9100cce49513167fc1ca5b66760472) (-0x2896fdae44d896a9fc1cf0d06a33bec4f51c0c6ca9bc2848de4c8c88f1698c03);
EDbl 0xfa6cfe8e80c57243337fa468bac8c1914c19bd6aedaf1dc0ac0b91b42e9bdf0 0xcbf992fdc86e2303ac41b45398f6e71a485a04c46794001c65ecc6a75d00da8 0x37db91982fd6c3a461da99851cbc38517aa0d19aef330eb98495c173d3197e9 0x2d88c660d692de337dd2bd8a96596ed6ca81606667fb789d691a435b79d1c7c9 0x2a0b0d47539571f937b513f2448dab51b2d7534cb90847b1d0d0e7443ca02fe0 0x1507f795baf4d13e773b1ca66aacf2c46ac0e1acd7ebb4d2bcb31004af40d930 0x192b6347a2bd2ab3c6db2f0d337291d7bd7fc50b516122308a321d498e9f8358 0x0 (-0x28dfb97f0d180c93658386e494693c7b64337412ca9c61b5a069c052c3c9e872) (-0x42ff80d6ea22a789b6e8abbf6f2bd1f259e779b4776e6f8cd30ff4d5e7a0caa);
ESub 0x3cbb1e64742ad100f661d50253e9121a6fc87656561fa1614f2787b5a3c25875 0x1c90dd558c06558541e8c17b7a91b227e23585d7b5655a175cc79254deb549e0 0x37d29d58d2cb788a0d5c96052e87989f66fb3d466908d1053849d74815ccf8f4 0x709947597d38b4f362367c37613f8b8e1d37b370386100016b7f09eec4a67144 0x8d9107f2f2d275d49e4634d7162d223bc38230de22c03026858d10f762b7b49 0x501f040174842a2b17139dc147a1c884e6aa53fee29e8a408645e5c7de4097f6 0xb90f0c4095b2c1ea807747d495479101fa91cb8261d71f8192a9dd29215afcc 0xa32e0f316d24e8cfbd015d0fad92527b6d14d09d1fa999b0518a3885e400aec 0x23c46b3e2a706579828644efe964996eeee4c235d6f96c03f0a38b31849607ff 0x7c886d39809d09a052e24845976f12ab711c5c7f4555c0d454264442e860866 0x10127e0605806e1403ec3c4912a9a264270b7557dbfe8f8b76fd8985ed06b437 (-0x11e1764fec490d6a37bf3d98f17883f8ede2b3bf937cf41289b18b243ab590f8);
EDbl 0x36814dd7c47c9df534dcf7ff90a23b8ba2a9f19c89a0fed96beaf3514725341d 0x48e66f1fa1774adc81509ff2a38de9b279d80544ee21c91f5ecd575987787f0f 0x28a5a4df3e9b31b5fa54470d9929f722db65009e6e0e55f6d7059dabc6e7746b 0x3b6dfb944ac29c1599fdf6b90e4f1dc2e292ccb4b81cd57cc1e6c1e34af9a15f 0x12c856b50c276a5f9fa9afab752526a0072dcc164a0e7f85eae1243784122cf4 0x1cd07e0901a2f65594184bafa2a5bfd3622cabaf6d4e7c34831451caa9bcc786 0x66004c8ec77745d2991b8505e81bc54abb30b98dc7bb7451dd32670e85d0f05 0x0 (-0x131bd66fb6183377c45770279307c5f0f8111d0a7d07aa1d70386d6d999a600c) (-0xab28110038f81589077560be242b1973c96fb68f6e3400d75f0b7479ace6ed8);
EDbl 0xa35c9e7b0aaf119aae11f59b2849fa4dacded80b3ece3bb37380987238e92d3 0x72c11857cee2072e1501192c150d44d553346d59f0a740a04017f99c83d4a4ed 0x402671abc9cda39940235cd4754ba646dd5af53addf0f2e9e4a4f84572d05644 0x1442f851bfb7aa3b03c9751736963ac76294fd5ae12c615aa115ee4467ce0f5c 0x541c86a5f5ea06a1c3a61842c14a9480853a0820033b6e70bc70f5fef4fdb905 0x17359c4d240834927524c30cb1c180d49589affaa992a8477499549c61c7b679 0x2984dbdb4fcb5cc90138a84653896fc407dbd425c2a0aa1b8353f3a338e0bef9 0x1 (-0x376023e3ecabda4b60269781bedd66a1c81b5e9e6b1b6f3c08182e71542a9a83) (-0x4b684aede1d64b77c4ad768032c745ae78ea79d4136f8f4bf2e1e05c79eb8c23);
EDbl 0x22e958df92ddf7849c42078a9469c87b6ff22f4bad14ca78b6dc513bdeee3d0c 0x1d03e2b68c8e494536a868c33ebc09d45109eae47667549d80650eed9c6ae3f6 0x5d10ec7870db49b21ecf137cdd3ff1103962f71729e82b6f322d551ac71ea87d 0x492b155df1430e28e4ddddf43162a8dad2a51629dbec2be0e0dff8452e99db9f 0x6c1a28e58067c476c60eca775422b7ca99421f12b2040071aeb2a32a677b330f 0xd07e26a5f44d7525fe7ff48d6b13fe2213c7a255a7ad7790dab3d7c85c119c 0x66e116a7d5efa83908b56ce9141aae3b29c830bde6e559ba1cf80835f340e9b2 0x1 0xb2d67ce7661d6ea11c518de254bc9ee823531501654e255a3085a2093827c5e (-0x188135595094a99d10b731ce6a328315be43c69b0587fe1c952899bc1ef5c8c2);
EDbl 0x719a95cee82484d09c469ba2d004b656a27bc6ab1d3cc61be292a7c0fe857840 0xd2d7d8ae740b254617c00aed803f2e91e5ec84d7e2ee7208ac6bb27f4623ad 0x31c4ca9f1f53b85f8f78c1be7551c78e85993c018c3148517dd3d012374c7764 0x3704cc901cbb15c0e91ed8d191c1480b806fb49302c04268032b8a81470c563 0x51ab8229e277f8fc7f192bcea3ca4cf2326dbf47a3fabbd5025ee895dd244dec 0x985a09c91ad8c0b2c109ae16cd1e0361241c48942ff97c653ed798618c2685c 0x693c2d8e9ccb48d8db783a5a582489fbaf31f94738325d050167d1716d3ece5 0x1 0x38a82ff62edd06fdc16d4d1119e5cf7939660ab005af676f211f930060c821b0 (-0x868719e214bd6398394c29d04f7d8442ab0ac3c11c6661d611dc2ee3cb526d);
EDbl 0x2c37c6fbb27a1f5df13729b9fc99865a85eb198423f19fcab965620a3f2a54bb 0x7456b2a19bb788f15ab135cd4eeddcf8bdedd3bcb8fb2e7f9411fde5c3df6072 0x4e3b574a210f294cd6653dd0ef547202b9e00160eb628a908d53fdce4dbac187 0x1179f7f4a2f47a0608c7c99a026e93a774a3e82707b5df025570a351abf3890e 0x433ea0aa81e550b932628bc9131a21a4bac3e6c61c535471c81ca5835e38c774 0x64d3ab327b141549c9aa4bdcd2504fd441f215dd8bc6fdd6d0a4284b6d9e3f3d 0x15b4daaf7c5a01d28bab40840379c4086738d7455629c4cf70a01b5cf17e7 0x1 0x15c4924d437409e9ce1aa32badfd0875ebca9164337f8e8459c9cce428dbe8ac (-0x3d1e4d8676488c5ddc1e6e624b77fc95b29724832c130a8c7f90a1b8610ca39d);
ESub 0x146be1e7c9c842667a027ed3b759ccf6b654619648cbdad381480e7d1928b259 0x765b7ebd7c185fdc3a12783d1239fc08a63022ca9e2305a7629225ad977a404c 0x3cb6b07a8d6b5de5aaf174a747b360f5b22c28025d6c3fb0d1c1455b4f4f5e34 0x29def54e162c6d8de2275e3dd8be4a6097f1763093fc2532dcdb31849cb2b396 0x49c2e13cc162a358dffb99ce105d19a00292251ea83bda3963c4662fc348e494 0x774e61082ddf3a1f9fbd9f61cd5ee60db0fcf2caa07c656c06eb832f98ac4121 0x20ad0cfce1229743fb0412a3e611c7e2a426502686c67e24952f2e7d1f7cfe01 0x5d122881495fa0c1155a91710bf17d93cb24a963c72f5866100e64b7cfe5e6c2 0x26e6a901c2aa22446aa5d6ad896f2b42f3a1097acae8d8a7749ff28a2e802fa8 0x1820e7801df7a367ff92c377ee49c1c99ddde05b3a59b9b5eea4d58bb0467713 (-0x664fbcc51318c1bbd6e4bb75e13ba33d87bb2abdad36b001d520afd7ea82139c) (-0x6e51894e4b045f8f8165c101ce78b3151f99610b855123567dbae0ee7647b732);
EDbl 0x488861f17a879db9dd07f3b38084e14834a9ef48b8213696c00dda61bff383d1 0x596fb8cb4a08a38dac0ec16c681d395a2480ed6f83024ff7cbd7ea403238585c 0x3b37b6b6086c4b2572d02e9d6f1d6fe03f348b8c39b0be51b595cd8df9bc7af3 0x6bb6cf109a3eed87ef65cdb8b11d64d251b12f473d0dd3be95c73a7ede95d1b6 0x307f185a91d2a2627c959f1b41fff4f2127ca3bb035d156ce0316cf0e4d956c3 0x3421185ad4674ae9fccdc78d403ccebfeaa8fb51188f3a2edfd4fdc1ffb9c36 0x6d70f3140fb78837453887025698145cd8aa43fe2f9e27cfc53e93075c86b902 0x0 (-0xa48f080cc1df879492da95c0436a9c9861e7446c110bfbb48b78ee9fafcda99) (-0x21e2b329d08e7ad0c1ae9a149dc9bcb367e5a363b388994ceba5dcf22f8de779);
EDbl 0x7042b73005ce8da92016b918df700d14dcfa978c423e3af01be50e020e76538 0x13cbe68b2e9b83e44d281aecdeda0473dc67a39263e2b3a7bceb982e8b8321b6 0x59628dd9e8216aad370416959dee92ad8c765c678e23832cd9f714e5f0ec7179 0x5f873d5419e62ee3bf7ed742afd5c7b49e06587f7d7837fb51725ac221109844 0x624af7a31c4c436887ac0ad11e73507118ffc17ef54b4ce777b45dc302426cb 0x2919ff8015eeb6e5aaa55a4df114bbf7749f7feec91cb58e389ea12adf2c26c8 0x3e7dbe7e3e522222816b004b755466202708602752e44e17d570a0ba7edbda7c 0x0 (-0x6506115828d2057ce4e39eca90b058b11c481130c2158befe56c10b5eb8acc10) (-0xf33b4b0890e91fcb7c556e6f23ff55a3457ae9e69545903acb5d7836b549cf);
EAdd 0x414a78dc5ec6a9c6ef90c29a86d22ccef235557a3448c3e2f760e49e5f52a230 0x513105651b69ca910d2fbbbf016c154e7ba21af1c09debe0d1a176a76035f793 0x311b2c68f6e68ea8247576188b3049bb625a1c3cfa1e592180f5248b4fbf71c8 0x4309853c254936503db9af23e57b36c316b94fa84fe88fb963efacf20935b48a 0x1889dae5e0b92c350813c98a3f860735c071d5a065e72921bce933a569a3fff4 0x54ea9fa8d3044897fac0639f3bb1eb26f35e889b2f07bbbeb0b33e3821452f64 0x1d4d7a0a8e51dbf58bf62ec72ddf079a077b5dcb236677c95a430f82f935888 0xfd65208f216031d0a867bf0b248038fe3861c751cb55c8630bc79bed602815e 0x1f76b8e0954ab862b2df2378f509e9bf5192c1eae8a3de1d2c9a760a1426c774 0xcd9fbd07d0213b97117862346ec817ceea83512dc76f60bbcc907a3e9201634 0x2088c62935beb8f328772a72d07ca071080493a1cc44fa2c6bdaec967d074584 (-0x35dcfe6e31b7bd8fb691be68f120f61983dcbccfcb4e7d27a918782f34015277);
EDbl 0x1888e320b28be7bc988e3fd13f25f824fe47980b48d277458788727ad0eeeebd 0x1c6058b877b3095be9270535a11fa14344b5f64b8406ca5ce0ed7016275f480 0x2983b71d9a194ba013eb12a18f6970e199f4d5c408428af8b343ccce580304e 0x6f46f3f9ce67da72f5a456fdb83cff733b9d5e7fbdc022075a2dd83f18982ddc 0x6caeb887f4c645b8f465a5d39f46686521fe11237d3bf957cef99b723317fd8e 0x214dce14012e073ce8bd9fbf329a53f5b1f3668e498f6f02f65bcb800d0d713a 0x33801d9a1855176038647cfece2552c578d77f368bc82a3d06de0acf7ea5bf21 0x0 (-0x3dff46653ab9090aa8b43eeed4bd720814215056556dbbc5558772f936755532) (-0x181806bce32c2383b3f979ed58c168deeaf8d0275f81c4b5f612bb701a53b92);
EDbl 0x258250c4efea2e216a45c2dd6799ee6af6ac066934f8a1067bfe6bfa2dda709d 0x5f01127a10ecd2717df1002aa61aeb264399912502254c930524adddc3893b80 0x6d0ac2f9a86c6ab88d4b5430b28201c0645ed21fab13dec0df2a5aec13d33102 0xab88c67a88e05ea817cf3396838e3c6521b5707a32a917174253c76e18a36e6 0x1dadc96e00219b31f4319f08b5b6e205edbc84e7f816b2b094fae18acdb705d1 0x4b3e7907b75e1d5a2ec070a5f41454a45326667732b26898a64b3c7cc8389c3 0x64a6f5606908f14ff67f576518c1354fe1f4ea84bddd2fb824e34d0948642 0x1 0x8046649487571ccf39572d0d3026a4b0a41e60966030365f7bcdcfb48bce541 (-0x16073b23f4d908b3b5680303a248231ce939b5642593d6227697a4fc61437908);
EDbl 0x4ce2ae1625d93f3efae3386bbb8c53868ebc7b07c067fd5f642d840f0f8f58ba 0x7cde5a28be2896c66e1d9a52b26b304110430528f9a06dedbe9d77d9eb268a01 0x147c0af749f26ac2ac2ead3f87e54af916162405b70c32ce3fa1b2f136311d37 0x612c294eef65205f52d6dc21aaf15358bace3d9521b579da909b62e87615b44e 0x4cb01e57a572b59ca6a82ee2230c085fa4b8198f6aa9470c50f9aff73fe49717 0xafddb5e1db2113e3dd56e3dfe8215ee61f94b977919ddbbe1521ac0f2e8991a 0x4683976f7db2953ea195b28ce6a850179729fa457775042fcc4f6fe0fc46d03a 0x0 (-0x99daf7b7d126f8379a87bff77d89c7dd22d94d89b00bc53eab9924d7feb9032) (-0x4acfd4ddc696ed03f39f9491fc8c69a7d77d9c281d4ab51af99dac62a3b2cdc2);
EDbl 0x18bc37e89afa5985f49b3f3ca1b9009a4297de2445abd4b03b41096e526d4161 0x75d320aa99c3ee25189d3d050de17b37f453ac8b8c94ff8c92346b42454fcef9 0xd0f78f3d1ac0e51c2cf069d90c35dd37aa10d0602394cb95c99c58838fa07fe 0x198e77926175069c049eaee26fdabec4f659fe33912ea6de455434031800dcb5 0xc7efe9e8fc8f84a41cfa844df1760f17bb8f12d8ef55a24e8ba6e7adf06d4b7 0x2e2ec029f7ebdcfdd225c668247b5aa2f1194acd03a491af96f21387b199fafe 0x79d050efed43994c7d8d250a00964a3c116bce5b02c4c0fd028d0737e50432fc 0x0 (-0x9398202d828624c9c52aa90849a2ebfa67fb506f0c73d1c24f6a8f535d72c7f1) (-0xb80b145102373d78d857acaf5f69a9b82f28f0b6bedc962ffcf222d7704d1c0);
ESub 0x23caf1d364e221c522e6d9e7b955924e81514ccc80af8a2cbf3ebebb022f0862 0x19cbf287d2e4f98f02a48d71032fa0ed6731d0f7760b5e6de96b70435585dc46 0x62cd28f0ebf096d9003707077549a3fc8f608edd50ce40acc98d3cde30b2c036 0x44a8e6eee1698b50e07dca6a71812f5ff6a956d60a10cc7074f6bc35043fd8cb 0x693be2a13a7770393287b73d834cecb4658069cb14385c368b1946f871cfd4fa 0x2654b28bb6f974a8d0325e073bc335326ae65bb91cf29e4f036647495ba364d 0x12475c8070a99ebd0a2062408badbbe6461febb33e94476b4aad60f9a4988611 0x5e4280887b0324ea7a1764040b1ac8f99042f06fa3aa660a0e9055ce9dd97261 0x3f4e131e3e566d62fe4350ec608e0d5ce80ae41c9f6fa760008b6f599f379608 0x3872acdb1a915341d8c6b79f54ae03427cfa17abd51811b3ba67c40282246395 (-0x6a301ffb0c8a2f278e7128ce08b48b85c5933b8cacb61b3175f6dbb9326f74b3) (-0x7b99dd3415ce4396fd94557e03611fe782f9ca5a6d2f3e27326fb8c1c9f5cd);
EDbl 0x350a4e0f738847dc0a492314eedd6fe77b4a51156e7987dfbeff8e3562ceb7bf 0x69746ded4c6e329166d99845a10fd5476ef396e132a8a05943133d3b7ae6621 0x2847172407792887c66fcadf772a5b657b9931985b04d166038dde84785d5747 0x5d4cf903b40ef4e14c859b1bab2476a7f8a8e627b88a5bbd2ae10f4a0a909576 0x3505e1dfac95cc598615d03c33fa1b427d0fb48f5d858a57275330c592333e2f 0xa023e04a7417934d580f96a29f3893e03e1401c495cc8fa320c488e775fbd91 0x532efb220bc855574c0c150c656c4c0d1613d34d122b23f9c5e1f99500402a6 0x0 0x78b5e8148c44ac53772ed7cdf4115ddbbd7ba37f6ab2fff981a8e00f39a513d (-0x2baf0e277d2d1e9d30b1566eb9d106637637279b989ead6ed1292375b95a372);
EDbl 0x398fd0d05c1f7ff7ce8158b9915a9dee623660d112e311e18c1411e16f215baa 0x43c7857c3c0f84138713c20c9e0d2f6567db2ebed383b916c58c3f1bb1675ca1 0x33384c25aa29b17a0da17634140aa1d74247496e4504deb5e47cc2249914fda3 0x5729959353f03ad7b7a586c6e430deb0146d01f9ccb3373355cf9d1b86d5646d 0x23f1496da9c6895daa041092d0263cd8d225b88b87ae587d7152daf6edc066ca 0x15fa89792db1bf7906b2a2ce9b634b6bb3660b1fb4a88b66e42069f8a376a696 0x56e16e40ede730cb181d88bd5795c718e6e7732f513e914753a5e38b89d8a4 0x0 0xab37e87e6a5e1420139083ce0ee7a9de9b9d0406aaf8fe7eeb7e5b80caf57be (-0x1308530b284468fdab93d32749ca43ad8d117545d210a19d7e1dc27f3d9d5238);
EDbl 0x40c17fc5e121af9b1382b3bddbb7474db5b8f9a94037e2f37f6f9ccfafc0b901 0x4650f7bef4b0462ea401427acb5f313eefdd6be7c3eedfbd4987bd8c9c3f3bca 0x3304ebefb54dd2ef8dad289e005c4bf3b055920ca4184227cd3d7eeca4a5dfdc 0x643c1f112422c9d4be592902427c038d9db91dd230b65a469cd9d0f5fbaf85eb 0x313733216ed4f6e530ac0064421fb799ed638bc58c9e181ecf9c52095709a60f 0x19e2b78f784062ecaa2f303fbda2825ac724117cca83bc739bfaf06f49943028 0x23e416bfa85fa3e7d6d7b8d325b9e7a3dfd7ac617eb4bc59fc7185f4ee3e2dee 0x0 (-0x241001e958d655b3f166a2ff32105cddfc280315a5cc7bece39cc05d653eaf39) (-0x1b0951b82e3125f946837570cfcd6ee2d2e4c0ea46cbfa5834157a94678e9c0d);
EDbl 0x1a6f95c3ffc6f4fe30f66f0655371ac081cbc0654c4622853ca947aedc3d0e81 0x4e19d703e8ec06e0c7c5e4bd89b6d41a9d1633f07849592dd31466ee28f22cc4 0x10e00a6427affefe8a2e80a21eaf641b18fde344228848f637bfa391640bd036 0x25d520f868740b7547e62fea25ae0c473338e2695247550be3d9cddacae46b29 0x14f5169440c40c76bdb7af4806fea82c1a3aff252fbf0c15ac1a2a4966d89af3 0x20c2a449b16875d8034a442dfcb834ef8b0c13e24079e3aaf56cd9ff0d69c197 0x26a0c23069d6be534b9bbc0820407f94967a9df6853b3aa25e35d7cfe6b5fbc7 0x0 (-0x42d182a70f7b8cc335baa1e83a743bafe438c521c60dd4d645e6db55ae819385) (-0xcc994d5103a88143dbb606eab07e177aa957314df5ff9039b4cdd59fc404d0f);
ESub 0x695610990c75daa069c813a631a6061183549d768846962090f79dcaa5dc2be9 0x526e2356b1d33db3ee1e11c8091c11dc69fec730bdd5a0533e450c13a1c7af54 0xdcd8e494a1a8d5e800e843fd69ea775518726c17fd4f091f1998e5a385d2ed0 0x5814ac0320bcd24d6c9e5097a15f10154a78298d2d077a8b0f43858b53f4f099 0x7e26089eceedfb78afd9d99baf643236e4f01ae0d90a8031158ffeca84be03f5 0x552f5897c232b2ebf25980023f1fd6bf10a0cd3a0df14e39b13cfe73c0188b0c 0x1389164bcb80c8868a177a1982171761a6ee5fbe31ce865c506cd381d6185f2f 0x3e7b1269872338b3d304b6fe07c5767bb0de8ff3936de0f175a9ebf1ba5b5703 0x8d80db76822477a698fa86334408aba112e3b6d064f93bd5842f3426f021707 0x56ce8564b7d12521f84c95da2d4bca850a7c5347148f0ec8d927117336dbb5c5 (-0x8c2eed033357a91585829323b0e01fbab2385544ca1640bca014d67470b626b) (-0x36dba0f5ff3470df749cd3220c338da7978cfa93aa5e1fbb5e5f82d066f2e179);
EDbl 0x23afdf0d6a7e08f389d5a51847ced4f31b415ce3fa76997252d3c8042459fb4b 0x719536c017cfa3c17acee83a1939f41c822b8db2c7ab21ebc87dbe019385bc0a 0x42c86ce8294d2780ffd326084b85fb979061f443002441bf42503ca7b22e7652 0x4be6f06908146b5b9c15ab44f3207bf632865e73cd4b8c1a47fdd9f9ad26a192 0x91e8380dec743da9c42853ca79a805ea2246a30cd274a5b05ad9d51faf82b40 0x56af6d196841132a36b7ac872e81b5927916c4f744b37d3b0fe3fa9418da04db 0x35157c0bda99ee1806fcadba6f1b991aead50e8b7fc16cdce4562acd0d13ee36 0x0 (-0x8520abc93b86ee94e7490ce55ab2506ac00392f8a6033f54b45e8ddf678ecac8) (-0x817918367a123caac9aec55aebe0133daf2d161dad153f853b3c333f95e6790);
EDbl 0x28673d4d20fa9c1da7a7d66b9bd72bb8aaccc5b432cb4fe440aa9ec94d5e4855 0x7605e384da666ce248309556829eb2a885b2150c839606128462591cbea71253 0x14dc1df71be2281dea1f7086db206ead17b40119aa8453ee0fb6a5d81ff1f5f4 0x23359681ec2bf29213c33362fda7ebf71171e9da86f793ab50c1661efe88f3b3 0xe59788ad049ca7429a3c2dc22877d49f9bde8c0dc733fbd410ac046de96fdbf 0x9f31fa0c39cddfccab15b221cb10fcc5ea324f09c722627ca64891d98cbc779 0x64ca229cb8ad40e980cbaf783be23b6afe3ec2b426dec219bd76bfb23dca6f55 0x0 (-0x3ace3144d2981fd68a127ea4c5237f0bc27c47a6e2f4e56e7be8f17f9e58bf15) (-0xd3b24203df682dbfd30c4363bc401d10ffc7c73a9e1170947bcc8c8f68c8de6);
EAdd 0x9c650e9b54c7826b4cd04df52d3d23aa6117e9577163ef05d70db1da2639730 0x29be7d8f82a6e39497d940ec819200e8771bd3e38cbeae5fba82543443a2f1e3 0x7f4da85815497db88974ae152e91633d24a0699917054d281281afa256c0bcad 0x7804b603e1eb8a4ea026dddecee55bba048e773d36119e7536b51416feec0ea5 0x761898d62febfe8161695bbb78a964eeeeb55d8cac8af5949c635b640b544f37 0x1c0a1722d880394036499f6f326cb8731656979952b9fbc8af1cb5d27360c9bf 0xa8bd3cc94a96c4b5d0cee08b647c47670c54d5ebab5d6a3d12a1d0c44b8b829 0x5e6b1c6a4851f0b5068d4445354bc2206af4dda39c7804db9d1b7a7d6552750f 0x51912800c55662f75a7bb9af5a816cccfba743901f000b7e2ba14418d7f2d8b0 0x6ebb67fc21f36c8e15c538b62bc33570d9f26ad8b83f2b3917db6d9d500d8304 (-0x3cfcf885d3e9e1468edf2fec680494d0e5fc9a9a03ac7942d75c28af945f8c7e) (-0x924f5e4cb8f1f767ae5e06732642a4cb920d7676af1165e22d01df7fdf72e7c);
EDbl 0x525144e31ba2780a6d75ce270b192f93323f054e3a056b1ef74ed24c0ae66c78 0x4ef69da42f8419babf6cb6c5c20e3b913d8e6bf49649fbfb2f5d331c91d742d8 0x75734f789f45882d3162e3d274c7cc196b573db3d8e85c76f9899f53e98c1d4c 0x6afc7499ae4f90d0eca720ce6265ddeadeee43f300f48b236de7220b14f6b37 0x113c77d0fb9f70dfdd678e3a715e91c54297a68b5726ec3b3d54d2ccc7c34dd8 0xbf16a363ad72cfca8c6f5d911e1167186fd91aa8cd3c38b22c5ef76a2a3c04 0xd9d23ed2ce9b55339288b058fda0e0183e1275b9c03f77bb1f98030413c1e1a 0x1 0x4b58a8938fcb9b0fa176da780b51ffe331ef66f5f51c5a36d06c15f735892a0 (-0xaa20e73e5ce956a8ed7a53293c8daae39316e63ab744096414283326a9bc4ff);
EDbl 0x35465809ad5def171b2bfb58124e015b3a36aaca987e41b85e8da5afd60da6ee 0x6bfab84c52496b9239191da5df149a62d6afdeac84cc586bd8bcdfd641fa0c30 0x6d4b6666f5522eb18d74b68cb97c8401646e75cc6079a726628c6b1801ee5897 0x32149f6793ea3777fa24f5588e1c21f962cae25810c88da152e61a719d721f09 0x44c939009e9808c66cb03ecbd49f9df7fe5c6c8bb04ee67af059af599b83c65f 0x34f053dc4fea03bdf335ab6109a9525b949cac4a43bc68e2bf7bce864ac14f2d 0x30b66b46cb253a48625fdffafe7f63c843e50b9ed84f6541060f925722cc8733 0x1 (-0x48ef20232478e843441172e04c0e845399e3c488e1fcf6223b150e2f2ad2a326) (-0x3a06f1b41f6bf1b56b188b012b3bb673625cd3ccb9788c63d8e8cd589dd4d750);
EAdd 0xfb308074d5c933379d5a7235fb5c36717668e748ee8c9ab3485ae054b0aefce 0x377e44a7603f8631565afac9f1e95368f51348484c1b83367c8d662d86b90ae5 0x5fc9bf47cd4b537a688d56ce480d5adf6db730a97c1960ac3ce8c2b9c8f49b9 0x3cc8937041d4560e941417b7e5aa151bdef3188a03d6ad2313ca4cab67fb3cf7 0x6d196886192f808a49f4036b2fd30db077ce8d8350c69344f6ee6b4120253cf5 0x40ced35e5c33c82a4ba53226f3c80afd803d22a6c28ff3d07e82b3c1572ca08b 0xde7ed388b3c38324c800c05f6c81b2e1939f9c8f3ed759322023b90c292a5df 0x56622d09db6defa82dadb1517f43aeb5788cb2239d7046bcad63e6450194d68d 0x3d5fcec8f038e59875c0ef1cf592d197de4c30fb703f6f41626ad18bb79c46e 0x33cede5d09b6f73ef8091763026bee9fa4e7806cb6d123ca96cd943f46d42038 (-0x3edb30329468d6e9b6a7c3e1166e6477515feddc611f259fb7753e3acfb96528) (-0x1c18cd2d3b5e315751ce02348693781ca09a843a1f0aadfb7154dadb288e066a);
EDbl 0x76145e80bd944d3b04b759c1ad23a0bb149d0a3d63878e4bbf90aa12d12533b1 0x3a8d4a424e897751a95f74c919a41bd7198083b11858e603989d2d52c2d965e3 0x6232ae83f0bc4e49b9376e4c4d165642f0292d6722542faaac89a07ecd002af2 0x7bd19c09a52095be07fe0c6476def87b409444f9bb34855fb08f761f715b90db 0x199eed85b46447744ec69e1829c8a238506b179298e055b50405d5a0a45b65e9 0x1ecf04a2b0efb81fbcf01a5fb7d7ec0f63dc771cb72758e426ce29a8d470bda 0x180eff8f250ec583840e2ff1f01e98962d5dafeba77c8119e1aaadeb355d3436 0x0 0xa05c2817e55fe73d348e58af2931a3c281c601c829807cef1317b4365e33921 (-0xbb84b8f620248cc33289810611972aff2f3c2d5c78281208e9fe8cf8dd1fcea);
EDbl 0x18c5bfe58d2c9dd2e8bd77b4d6ea13dcab3a43cffcd0ed8c608bec658d135459 0x51acaeb92ff3674031943f0152de2070dbe5e98e57a934c39c276e5ff2b2bb75 0x60d299f098c5af6a454e81ff48ef5d260662c2613cb4f969e51f6b77da640a10 0x68eb8b56c018d88786f0cdce25e3bff367f661aa3e2bb5dc0f834bb70f15e8b7 0x818f1662753291d41a24bcedcf462cd61939f490176bc722a63e03f34b1dea7 0x6ced917b2b8a44ab05f54ba4ef493f14382a1089e71622150f542c9119181b75 0x1ac8a741dc56682501513d3df4371d82463d08c7a8ca51e031c5e51e5ffbf29a 0x0 (-0x6a75f3bc564019fdb1858ff314668dafb6ea60c41905fe534f129c9143c2c853) (-0x52ab554a563c96391291c7e37241fa70d8a4b859b354373ed1211d86fbae1f0);
EDbl 0x70dc9136f5e352f230cbdd689ae7d73d1ec8b4d6bf4d5888a180d27186a88c6a 0x4ce7b00ace68ed9a47f6207b7d268b851bcbd00bc04a3d7e54b9f353f4725665 0x48e60e862f74b5fe48766b41d05f877fa9b4230d2701db84905c4b4cdf2ba80f 0x5d146868b9ce754b52f4bc71b91580447ca1311b2ef2bd89fafe0060228e0ec4 0x142e59e28a59bf4d0a7e512fe8b5f8c4d2ed0e0e07f0e2056aa1b513436266b5 0x4cb5977e337f581cad5f4986cc780de48a2510800aaeed142cccec610382a2a 0x341d7618e0e1731d2988692edbb01c45e6a1a365caeab29f9cebe4049dd1fee9 0x0 (-0xdd1c8bdacecad799cd188dd75d9d62bb4035dc29dfd552e2bf19eeed9007108) (-0xc200cc628bc9f42f593c630faaae1a6caed271af294dff6269a9163001e30fa);
EAdd 0x78edc97d284397cd0eb6a59af9b9901bcde45aad8c20aa48a2a6abc03e220ff7 0x50b7c26e80bc90f1eab23876883a77352b035ecb16016a2fce0069ddc41b15ed 0x6501a11a871aa920017b5aff3a07cd46690b34043f791d6d3561de3438e5a894 0x70b959a23eba57ae9ff819fc641ed604163ca66fcd083131dd618f765d284516 0x3c4791176d290189949022db8963e769f1657cc0cea78c5eb249c6c8b915f0f2 0x72a1143fc1e03dcce6cd587b1dd830885e6df37993387440ff8d48a51c7af83d 0x1d75a2b7187768602db8e8b58e461a715ce29008d409a08947010f520ad296f0 0x3d86266f0b87247b6cc4e6c930eba2d0e309733c99d4fdfeaa2e5c4329f511ea 0x40b7bf3416691a9d349b0b6e527f905e02fb4dfe24a9b0543a82211746c1cd32 0x3515e89a5e5ffdba55f5d3bee837244e1b11d8338bedf1d48730f21afc5c28eb (-0x2110a7b783d2c10adac5a88e6b29e153c62c41c43be61714e113be9a41dd560) (-0x48493d11e4bb507e4154e7ab552b3fa637bb1bb02c8576ab9939c647ad058b4e);
EDbl 0x5b68d752b610751c3d23c5cce115e89a5ec6f82f0d90b4e38eeffb6c750c9bed 0x2bec8d0d7757e3f2444acb8ddcc9f6557b728e4dd97ba2fc370e58e689553c72 0x430c64c738e3390e036e89c7e9b9f33ff8baea315ac248ea8e5452b8048a3795 0x152989e004d787092ccdff92743e94b6da0f349a0a727ba38f63c239cb289faf 0x521d2518cbf44dfb295f75ca8a84a176e1544a68afb032b9010f6f81c69e6807 0x723f93880c2363c3985fd427fadb82469bcddf5c21f8cc89d08d77ae8885dc2c 0x32e6bad93c3b25fe360a83137ad6ea9610c243809c95a0708348f28eb2981962 0x1 (-0x5de078fa61fc5f9f33e107925b99053feddae5de40b72354b0fb2c0eaa60a7e7) (-0x1c2d8aaf789eac595adc44edca0a498c095548965e7d99f559b678a1205a8fb6);
EDbl 0x2e232e3dfd29105441d416b738c2d06b86797a3812343bde09f475c26ed97608 0x61519474045d322ee924aa8470911ada37816faf1c312b38d6789b01c9008190 0x6c628e665c2152a21da532eab1e8228f0058127555c5baebe872e79b89b34df8 0x7dd7ca646890f73a3c41036c8587ed1a4038952ac9ec407a7daf5d20ec01a066 0x11753bfe0c6fa4981e9bd081d39fca8b3fe082b57426858e953c7585624e526e 0x41476808eb7f52540649f0193f5d466bccd952fa5b973cfad99451d0bb802115 0xf12a3edc946cd97a28fc86c7d5aba67ba7eb372db6b5e907c76f302d3af9416 0x0 (-0x38715ecf7f901e2934e5a67b8345c0c4f5f6d7b280464bf8eb587636c95e11b4) (-0xd45f7e5dc64f5e3834839b5bcbc21c7c83d1cadbeb4d29ce18f103d78fc03d6);
ESub 0x645026fc12791f1b6ccbf47211a928f7ea26710d604340570ee5adbde5dd1e03 0x647d80418e40c19f4f799b2f5426805c64c49f7825b6a89e8cc44a1598aa4e4a 0x746d6170b580df2b6fb464aebcd90b4d031117d58e70cd10508d7f78b23d2d98 0x1aa7a9f669e4282587508869f3a748ae92cdf2f27cf42293dec6e267d40067ae 0x69af496cf9cf2affd070bd57868ea0b02223f327e38afaa1b57739916e8fc02c 0x385f69fa8f19e460061b0c09eb285c5b2d24cbc205a2b3c921b291d1ed613adf 0x22182fb2e37e50e0d73375a306f1e8e7a0a18eafeb6e08f4e29b0f469ce2b700 0x4ddadd299d175b58ba83bb9d26da7be1c6012625b02755c711fa159b07339ada 0x4a9930116a05b3bbcae48d2d11d074d01901d7e3824dbdd03bfecdecd9639a8c 0x160209f0d22d2be5a364cde232b9a790059e8c3965feaa507c1324aa57a6780d (-0x40a5a7c4bddb95793276cfcd9a635c7e1a59d34f807172941ca5a23b2cd99110) (-0x2c41d0758790b897956b3ff26013e43fa2931da019130b2c7b11b1052cdb90fa);
EDbl 0x3e81d6bd98141088bcf38d0e7cc9bb4036359f9cbb82af499291f8411fd4e9f2 0x70501bd75aad88925a0934ca94c16bd97b3b5c42645c717d7ca6018bca1a846c 0x7d7596515905d67ba0cb4a787fe3048749b3cffd688de05d60612b2979c825a4 0x7696b6adf2c1db122e66652f0092ca7d5cf8d8a72feeb751e8bb2fecfbe641b6 0x7921205c99bc04968d9b1ab680afc5f6134508a9c760d6f4885a04c3821e1bff 0x4e9d6f1aa3d3f3626653f4d5d466fc05d7b20d633dd61f9303df21291eb04959 0x4ee493736ed24317b2704f19365544001735964fdc6f2e14031d4f3ce58fd8a6 0x1 (-0x625b0836cacf798ad86aac169f95aa506e3008d9de57c326dc0347672086dca6) (-0x6a48cb5e08ac00430766f86ab00247d38e0ba88f094d1c674aeaaaacd2d0b3ae);
EDbl 0x57d9439c3077bd75dc6918f89cea600f1182b64ca111c1c48fc3f8675c94542 0x16a1e092baa66a9943320552ab17e4295eccca0a8a71f870de26435bac3a8354 0x170abbab4a97d2e345a6c63f57645c7ccbcd371db3e1f00978f12170a4ca19c9 0x601c6bc1756ea05793b87fdf64bd1e60baccfe40399035891840a1c7bc01e52c 0x4911b0162ad6cd744e11b9a00d58c1e3eeffc72285ae457f9f4f80571737cb63 0x1e864bbbe9bd05ccb1e28194a69c307cac6f9d1c4ef28d75d3ddb1d509cc9d87 0x628c62dbb1ef4c7ee95224d866af37998415f1e4a800b413f85bb0e201c45574 0x0 (-0x6a8f148512552c4f48038529da51b1365ad0d319b030f6ddd161f397f3fe5312) (-0xceb72b6021f2569e49576b1decedf4440c5b45d395a3674c661be65ccd581cd);
EDbl 0x55808ec1f709d0210ac361d83916a641a06e430cf473ccfc382995d898cdb244 0x2bbce1bc3860a8b37a61c8897b261dd428ed8a9df273faf64c8fd60f591bca0c 0x4fba0a2182ad165d3688da9d7b2d3ae580dfcc747271e5ad41990b710e7b9b29 0x7f7418eb6b2dfb98aaa8488eacd769629338a5f9f2b0358f53585df9cb8f0090 0x2fba0ec9e880e53b741f6df131aa2e7d1258d985803e4fe211bf5288bd136567 0x3c4ac8afb32d5cde2bcda26dab76e917b41bf7ec4dabc27bee2133348827e7 0x40071eaeb48f4c2298e52a46d1a51f5cd0f75fc3a2b9f42886e708c455fff00 0x0 0x1df06efabfbc574d75752006de3ea58af7220643ba3f15f3af849ab66fab8cbc (-0x104eee68c8f2de7d44fa8ee22fa65e7a5068fc17e61d0abfc2de4040383b27a9);
EDbl 0xee06076dc753b6d8fc1acc77283b74bcb76deabaae2da88d7f5712b81d99c80 0x761434fed78a22c8d4683ba8501b1d7da5cbb1db4029a9cfbe2b3025bbb5cfad 0x375a761bd60c06f77348b1642eba3e8337bd52d3ecc25cd48f52e691eb44e258 0x734aaac2e18530a4b68b029a7d2c21291a1da213f849c2f37556fc5d9c460d17 0x3bf034a70b7929ad434251364e71e2a5e2604f400b87661ee60415cbb1012abf 0x391d3eb7bf3e9e16c089d83cef2a0d6cdfe296d1a6c5619379fc1b18f4f59798 0xef1fe631cdf5841ab4c980bad7d03dc726fda0cc03bb3359c1919c2ca6f883d 0x0 (-0x33775fd6dcd83efa41a8c45308648c2554b3f47e26398a7217741365e34b3260) (-0x374ae6e323a7fd316c93e95e375470424123f8a9bf98943832fc1bd69cc31fc8);
EDbl 0x4aa35fc0a85b57e8f8b88070cd61363b4cc9c8ef8087ef2fa8b577956d1454c6 0xb6280f2806a0be7ac2936ded8690fe18c79904d7dc7e99821d4b5adf7379253 0x267f344d4d47d1527e5608abaa6b0ed99f482b602e43c6819dad0f4d9fe1ee9f 0x41b15622daa7acfc86aeeb7cf0e5063e3dd30e8049538f373ba640e7bdb4bb16 0x1b3221d58d5fdbaa0858e2d14679f7649e8ae3201b0fc8b59df9319a1dd2cc77 0x1ba9e6be8eff85fc3e6d4f3496b46e64c6de8ec05374352010764666ae7e0c5 0x6ced44e682fb15ce39d26a1e5a7ca1076a73c58456b396be9013b23aee2306bf 0x0 (-0xb96b28c26d46df8cd474f9ff183e6908e3df09e56beeb541f7a10e0021dee0e) (-0x26b3cafe98ca94509f9d521ebc12a457a9f08c392b2712c269f0dccae3a47b4);
ESub 0x3e8e57035abe0d96886576e67f24917505e08b7b0e4eb74a25c8d56d9e04688 0x21691b4c8cac8d358f5fa7f290efe060ed70da69b6115e4a6819ad2a181856bf 0x32530a4961a89bfc304c5391869d4435df70b7fae820dad3a8806416473e2588 0x6f8200c20054d652f020f8b246ba731ad6c7a6a4649fee134e43c48b2c2c7500 0x47acd2563bc988c9aca7eff979c7becaee707358630edab4b9681ea37d93cad5 0x44e25bf31e0eb3fe5d2f50eb0934b0f6ed1665edd088d4cc3037fef1f803fca0 0x3727e714036a94f96802976543c1dd4455fda16194f445193c3c2e8f89bc3312 0x91b9a5b99ee6fec89ba924be0540cb47061403dfe3987ace7dd5e24c5c60ea8 0x203e8b5cf471463ad8c833073b87f8ae7e119e3e241f85699814bd48267b0f6f 0x3e70aa59098bc96dd76cf6a1b2c809ba3de8a1c3394dd367ae0351eda10981e0 (-0x42050251d2692528f7f17d4ef55e6af5a62df01c27209fb817896623b35d5095) (-0x11faec150caec3e3d11de1deb85df81b2caaf3d637b84a01af5dfd994b263cad);
EDbl 0x4acc82cb5e92b91f82c217862682c01ec660ecf28220e922273f5889c17a7d5 0x29206e869ceceed15eeaa51787064050c585bc180ff42d255c916435303059ee 0x41341c80f17f1ff4fb0bdbb7e602e4491cbcca71d4ff1ff212e3b2ca9eeedbca 0x461ab9d3bdee18e87fd727f6f01844cf01e3da785ba37dbb30f333b89b2f6d66 0x4e69d52cc6ef8f384cb4c3f0a156085e527100686a45dc91e0f80edfc40919c 0x1e9282948a800248d5d68e13751d4ed9bf2ac30fe254abf3c114632fde538e 0x8b8886247f23d07bce131207e7de52d7bbad3781a9bd3305437e549b4bc5827 0x0 (-0x1dcaf992c03d1895bb6aead4aedf27445aaf263502699a6b652e5f3b7969834) (-0x1931c4730d0a3ed6a0d8f13812af28305d96000d44f26c81f8defbffb124e4c);
EDbl 0x4e9a60cd9e9f8c3f0a907bb3bc7426e50a9cd7addd108fad597f690a18c15851 0x38902ae0463e1d7ef7ea7a68821c0860a4d56cabcad26451f8636b9072cd5901 0x62f8cd97fd8d57cdc0791710d24983978c015c40ef7f1da40bcc95eb8297752c 0x775392a3ed6d05db12744409dfd8cf9bc382643b59e3f85827b9621097b06d2a 0x145ac50befdfae0d51fb2cf90d8f4c04378107fa6a64dab41beccc251518f7fe 0x2bb5bdfc933d74f2caec8f80bb3985b14e9ec255ada3027bbb09d5e97d26a1 0xd36cf05df462abe146ce5485e4b80c44d03ff5e1db5dc7f2e910e08ebba9542 0x0 0x97ecdf996c0193660a6208daa0845ba982639cd30dc4ad97d65f79bd04fb45a (-0x8fea324590bfbcd89c8b5ba3a4a111ff54006d2599094ef6c70652d47dfd15a);
EDbl 0x6322eeaeaf468d0529d560dcca892487f20cbf6ab8cfc6dfa9b30a1591ff630 0x5a167b071abdc96dd330f98f082302c7e74df929242b764b39b90043c1bbc8a3 0x4fb5e5d4cf43d5f62691dda6c5ff43553de215eda7559bf7b402ff76ecf75976 0x5bdf715450384fdcbe618877bea4f64abf488001b0251ec6b3a8d82b26a883bb 0xc298b7f80f479e697cfaad0f8a5b2f581666a1408cf82ceffa5d8b439b12a45 0x3044e02bd14ddb147a8ff54deee1d3ca1bedee00adbb3c3d38b891ec7f633d77 0x18fec7e4c4711ca039e9982beaf2f0e24a1c08b1d4826248c8f255878144e29e 0x0 (-0x44e16d7cc34d8c4c9312c7581f82e6dea6f7e06b6af535e2c2b088f327d17c3a) (-0x88f58ea3972af709dd8945b9a1ecf077d022ce6c4b0ea0d2206c4d3f7dfd602);
EDbl 0x23b84307532a01cff4269254477608e574eed7fb3cf40c78756fc913f83e5439 0x7b1371642111e64e13b004a1e2c82202042cbae18ba21ddcadb0d4f6ebf3df0a 0x124c70230096d884ce6e9b8aa2a8d8160dd163d7a12444a0f4937c16c9582f20 0x52c8e8618b5bc708d1f71a4a2f1f0cb260bdbe6b5a9801af0a0894a4ca31447b 0x407c783e8ac4ee8403887ebf8c76349c52ec5a93b973bd0e1575188e00d9155b 0x4cc812bec100c9d2bbb1f5493252bd6f6e63c7b400ad6d26c8c48e191a8560 0x3f67a0f4be4bbc496034c4e6d8b112be307daec485b7d09ad0b677a26f9f2ac6 0x0 0x9461e6f2e16acacbface9d84bd8bb612a612dd4a8d792bcb8d9752632376a4f (-0x3e01672646b0195b9d5294c058229c76642fcbdb93fb2c9a29b45e0ace857bc9);
ESub 0x38b134fcb2edcab14185bba354a60604e140d8f943881c570611d622154c2a75 0x1a683ec8479e69fc479bbb93bba4d7f52469c7b35e5060e8a91040c08564705e 0x71efa199548f509d98d0d0688efb95bced972c8aa2920584a881f4bcd9ad2efe 0x2f42c11ce741850b42f336e7e8a01b34d023c8b46fb4e4b08af3dd92565cb276 0x598077c02fc342a9bad7e44fe1949aaa116e500cd66afbbe8bdfad20c740afaa 0x6d74f1dacd10a8aaed362a6d7e4287be3b560e695cb0e6bd9836a4407ab26fc3 0x1a65654b9c5d7a962240b7f2be77dbffe45d61f451395c3f66b3bf89c1788c51 0x6275f4501a74b83e76266a1b1bd34e680356fbe7a2e817e3be2710c5898fe5a2 0x4900901a3457d40904bc99fc496f04d06dfd2a9137cf9a8b5308b36825e05a50 0x210bd93e3afff598916d0ba3656f341eca1da36dc99fef2e4a29ef7105aa61dd (-0x470bf97a562650ec707e79efd3a82c4af08fa267feedb3ed228093103b03a30a) (-0x1694e5d4dc8c3623d07c1ddf685157cd7a339d14d6dc760f314090445432bf70);
EDbl 0x6db79d4b001f4031c020618cf2815d977a4875e0ec42eadfd8e0d3f40b9ba4ae 0xc277166834fbf50c3a3f59f302695df43509a3d809155095f18812ba5d721a1 0x5b99a63354634a219caf015c3344b298c98518b9efe4eb41eb7eae5bc2bc8b5b 0x381679470705d0acead5f3c749a04882ba6d1ca752722e74c22457c1a06ba26a 0x5c7cd313b2a2868b4e26f26b165b95e9f0e803ed628d4332d6a5a965ddaf16fc 0x191c03b1bd5e2f4262ab6eb75869e9afa9176826ab41d87fc7506e9d046ed6d6 0x572ae678157fb3c24d5bca556b092512f6114054b9f272436367cfa86673942 0x1 0x37e2a2c200898c463a4dec99bceb83db7a845910cca1c49af64c7d2d1360c34c (-0x8c833c26d70a0d4ef6231771528d5adaac2d2d9bf32319ec57fc299895bb11b);
EDbl 0x45997974317248bb37daad58ae6012f4be854f783c828af1e0d942e976c6a6ea 0x79da8f28ff1410729c2c806fd139b054472c2123f5b8d92bf0ace67d5a9e660d 0x5b5551ebb14f720ab7f1195036f74c43b2f34bd5ab264ae02e02c1c96857f66b 0x5d1300c2b6c4aae491046f6f8e0ef91983c1c93f5018afaaac6bd1805c3cfdd7 0x1bdaed7057538d9d913561f5717acd5d0ce7d69a4f264ca7e690fb6f3e5076c 0x5e0bbf483ff3baef1791cff8c994b484fd949b5d75f360169d338a47aa16fa1d 0x127716ab78e4a6a557ee565671d6e4e1ed81832e2ba15eb6ae02ba57012bdd2 0x0 (-0x13e3b5280f61ffc581727286236b48130402542f7138bfb74ead49be2ce7ba34) (-0x1a8484781711eda5fc1e2bb7eb4d265b2e27904d2278e1230fa9f65687156b4);
EAdd 0x7341492b8354245f542a6dc9c8913663c8575acabe4605b1e2aefab35c461a64 0x5bff9cf301b351c5870758a56f25c2e2abdeea48a408c19f089ed77b07c266e 0x34636ca862f5eb25df01b975427d591e5bbf75ecde4ed9309b00f3f7f4bd7bed 0x7b153f53ff43405bb02399f30dc7c0436c234db65e2d7a898d571ecaaee51e6d 0x7c65abe340b1cc7b95b00345ca923931347a4d189e76c8afa890a9a7342f54ea 0x703339465cd75eab3bc9644f02480b48852c696129bced0e2a55c82ef976f8a2 0x122ac7057fff0afa2826d16605db8881bc24263f7af44fba8f9e0e24d484f053 0x617ba5ba65a9a6c2168a0059742e26a9d289b41cc493e0eff3bd8531154b84d7 0x21911885c9ab35dca73e0125a59814e41e8b48460f2a4c2f018526bc41bd5551 0x779e5966400eaf10694b69f0a45af62cb1ec72f9337165d307af240fe7caa700 0xd8ac27475bd98619ca59a72f510db0ee1ce6a54b40b4fb1e97c6d4108816d52 (-0x50a47a5790b824d946715a576d81ad91f17f73ea9a37021228931aa203aaaa8);
EDbl 0x70d44826161013e32eef939f09b8535c38c95d1e13b5da623aa0b5bc03050506 0x2741cbbdf0cdd67c13d47d6c6a91e971bcd44dfb1e4fd849dbf45841a1d52ada 0xb4307b42454f9689e652f1c64264e50bc13c4277752792cd61f56374072c77d 0x651d74d8283c07bd418743ddaf5fb6ea420abd588cc4955e1c9b3b06764cd2ae 0x59da6d2403e70e54a32214c14b39689985f6f93115721c31467be4cf35da0b31 0x67c770c6aa004366f8d1562deecbc44f10637bd70b130e44e93a8f96ff1b7d7f 0x421f719d9f17e03c37362eed03f75442db9d6ad81d97b2119cadab42d7282e 0x0 0x44d9517cfe33b46de941c5e4d60ca9d249790fb02138178eac68e8eaad4c604e (-0x1b8ebd322420b217df919fab9b74c6aad5321b24eae4f60dec0cd301259cbed5);
EDbl 0x372954122a05fef57cb2eaee17185832f91a14d0f5ec8ef2fe2a22e6541fd016 0x10bcca34f9b5a72af529b51756011bff26cbc0fdec4bb027e0891a442a933242 0x5570623fbb909e44df714a642ece452479f8858edb56da171d9abe4ffe939daa 0x58c98747d5a76ac9efee733ffddd9c20978a9782e39603e7c731b325ce4c9335 0x35925081a16cc85107d28dbcf0f56fc1d9211f4083f29d0a996f4d5cfb8f58b 0x6374de51cd701c36a667a87bc82a719de5f848d752aff7158122ef54aa8a0522 0xc0a39f9eff391693b4dc4e1b79722312effd12409324776e4b77c94cdb4044b 0x0 (-0x43c3f8165aa6edce88bf13f82fc98409ca275b3ee9f3aa246d44b536fd00a89e) (-0x7014d9785929fb27b49ffa19c50e8804fc4739d7e144c55e466aaeafe290d5);
EDbl 0x2137bffd5fa5cef5b73642ea41b779eb1433ed050d4713fa510f9d5f3bdb0de3 0x2beda1b2f29ab1bf89eed599cb03b6e1b00fab72fb0bb6745ab5f42d9e70e267 0x29d1876ca777d9db78095ce3b855666a64aad830cbabb7166d2878f60115a1b2 0x429856a77fd5a984c354084c61fea33c20cdf813c7b50396208446cb1fde39ed 0x18c6cf3ad85dcfa94b4aab68a9a93cd1bc231fe2fc094c7fb35bcdd51ec8983b 0x17c59197aef7ecae0a8b7cd203e58e8745df6006f4ad1d4ae1fe18ae145926ba 0x2304900797a3977edd7c0ab61277951e68df728925d41a41edcd16675611293 0x0 (-0x7ff00afae3fb9a3d52699f8aec9e798ea02f13004ed2c2912ce8e1ae9450143) (-0x880c9062bba24d4d23181408e2b172a2e4f296f1bb46571995b7858d2798106);
ESub 0x30dba84f0cd132775194b4a25926320b2b0c5f120204d8e9545d70d764fbb206 0x1bc931a5b331adbfb5516736e78c6ee74639a8379f95208cc44233f1438ab76 0x330ec3ee9b02978cae389ef14ef1ef77ca8db56e25d37601bc27dad08d1b8b65 0x6ff14e28c2155affa18bde14a2695f1af33fbc5bfc095ec37bc4c357b1f3e847 0x4313dbaac9fb05151df398790b5760dbde1539146519daa49efd75c6ef427eb4 0x205ff6348d27796b558ca1288cca293e6cfc2aa22fe039a21b75a7eef3d3d254 0x188c128812ef4e5fedbbb7efe8d0b146981b22416895620268a0194f7b281904 0x2324815bf5488e32d4bf1147d59c924e2672ef8f2f3c91f6aef7f68ae5271b85 0x20b6d350e8fe8fb78acf47d48b481ab8ce84698a341731c733b87803106f63a7 0x3aa9acd7287dfb5cc817a91c3001958f755827c396e1bbd92f6f210dfac614f8 (-0x2eadb72c3c7c698b8cdf77b2368ebf76cd4ec145f4154b1c3eab2e0a81a6c0cb) (-0x707212e59923c5c4d498b05841aa713f3780c64ba563c62a8c634bf7aa88e6);
EDbl 0x44987df38f8a506ca81878c40461a23415d958f4f116f1f666a9dfd0617c8290 0x525618acec7d466cf74856a317edd906f8a177cac55b5fed5aa1bbaecbe27d3e 0x683f0801c9083638c9d1f504a6acfdad03784349d565231af4b2116bfd32048c 0x5d22962e27892d3c79f35e08767c2479203bab3ac3c21dd201c125819a12d797 0x74e38e2c5e80f703b0216903cfcf26cc1cc367f0ee5cfab70d0f14159ce0d2f8 0x12a6372e156c74292576c1202cf6c91851838b6dbdcbbfbb315dccac758f3ef8 0x6081d2fe74171058e8b89813cc26aeb1b5ec933976435ea7522d8d38ef261 0x1 0x3d50c098c0f64cc96e0172e5f9c53b8f4c1bd88d5bf8c86f0d34821da9b972d8 (-0x4b30668086bf6ee6180fd1a9a4fd2a11c9b56f4016f82e2fb7a18da55544bbb3);
EDbl 0x567c281163625fc06276e3b75fea4870c4f3077ca5ef80dd6fdc51dcbc8afd1f 0x7c9fe8d294d9748be92c38f17e898ccbb2b20612851621ae12c599a70a3c6518 0x4ef058796f413e6b9e82764fe6bc1e1cef59ffa271360e715d63a80745e80068 0x7bbdee229c7be4523952be7c9f355b0ba61f26db1c87be05db82516f036c4f99 0x2ccd95a92d3aa5e69ad0482cb8793ceeb6c52738ab51af947e1ea967bd844f31 0x24c2bb7e66e761c03bde70758364d5fd63e1160ad47755e25af7363d0576cff8 0x34f68986bc200cde7f458816982428f2f5dc93e6c3dbf695292c57b11f319db7 0x0 (-0x39fa12feda951b8348ec6e406262b60d052019fe5b8a7a0aae66588223fb1cf5) (-0x2b9f21da209cfd7898f24490821b1dbec598d46d190dbad4a3c85cc0630d9ded);
EAdd 0x73b891cf6aacfe4dc349b12dee1c922b9b46379cf7a37b7d449d413ada8cf8f4 0x7b6434341cb7cd466a595ed763e9d68138c2511762b27292dfbe83356bcf2b2c 0x4b61f3a1e967bd9c8ad4ab36584fde4b8e9a318ec9d39f47c2f7ce0ba142ff40 0x307fed7543e12a09875693f4653ad7095bc19e753744e7be756ae1526e96b74e 0x100c6206b521b63ebd6e1d115a78c18cea623b0d9c29691f6c492e4c1522a6b9 0x21a37246d6528e0264ab789c52472da2b934a506a938f3220756e27edcea2084 0x16931938d641a9986463cfc25cab1d8d7e69d8682ea66a0349616608bbcaebbe 0x63b320a877145d3cba89c727986e0a3c8ef4d1a86a781af1a89e1485a1c9ea7a 0x304cc4865898688856ac0de55b60ba6d171c16e95f29860d8fc39f8e57b6f443 0x614aed167e917a56a250b0f2ba4bcb31817faaf2e783e07d8d844f29a913702 (-0x474e70b149ddb1898df418ee19aefc2a2992117783bacf75617055deab3f3924) (-0x206d653971aa076d00595804bb5556200a5fe3f8426d6d776b63845a3df9901a);
EDbl 0x4bfc09b54eafae269ba23c38d88917098399f19420521c1d738fa65d66f0d904 0x4419c9f6112fcfc327c7abc3e56ca5a63433fda629d0867952ead1cd3d715c67 0x3ed5d724ed3c82eb0114ff06784b411ffb0c2b032c519fa53ef1b47c14e13565 0x7e92bf32c87f9b1e2e0a06f0b641b459d046153f22c32e63bc952d1ba86ab71c 0x3fbce80ddb4318332cf507ea3df67339d539ea3bf6718ebe7da3789f938981b7 0x689eb0248e1ac81a2b0fff30b958ba9c4b8d8c0d295b7b24274ded116f92ec77 0x76f2e2c5cde88a40c4fb5f4637507a3b08c35426ba71e61acc349a0f79aee3c4 0x0 (-0xb945b64c1b168b4619b69a56efc65cfe849723a775050478b0c0839255431594) (-0x21e932bddb331a8a63e8287c4a842d45d35f4c53d4eb36daebe9320895927724);
EDbl 0x397af7e4941f3e1114556184cc4ae0008d953dc0dd47c4f4e6f22f5956a1cc75 0x535d909fb69460b9a8480c5626305e2e5f5caf994d2602c20072b1a96b2bd5e4 0x793d9de6ff2e771e37564c48298f98570874201300f1b46bea51b9acb5940b71 0x474b87d16e867259d80febb4a1a7a4f8ebb4cb2490896e52a148c8a267581529 0x4e0de9ea6f57fb3ba0b99f6c78180ca1e340ab118f97b9e6b6f70ef5b1c409a5 0x2d1b4ba6b2d833b4641bedd0e10fddc9b3424388b98c0d92b6d7e5bfe3b0a53b 0x243b6bc7950a2a70bd15f49af655226b9b55837427ef4ab7f4ba12d008443468 0x1 (-0x2dcd39f48c925a286e44eddf032102abaead297066220b550777e7541483202b) (-0x32d613fb044e84f9f1043ec7f03f62d0ea270e59b84e33e33d4c852dd3a2d31e);
EDbl 0x7ae9b9a9f72e8d1d2aa980e8f0031d4ac05637633e69a127b1cc5a56c741ee14 0x6fb8d66d1cf13775124476ef36d41ce14ca267f51157f2cefa3fb9c7b293986d 0x5e1eaca4ebca608c2db6a4f1141d907ff91aafef7c0bc5e5a446e9e50fd5e5d5 0x1d538129e2b90ee6469243d255dbeafc5244ff21d273f47a6e743e508cc47254 0x3f34d484f6eeae5a18db9ee141be5a7c592a4f3256682e94ca2d546b7cee8c6c 0x19cffae9ffbbf2ae74ea1c15cd03e49cb78882c3bdce568ebde78278162d89b4 0x364b9bf3ec45df23cab69fa1c27047c796f51f1c120acad19ce36a4312eb542c 0x1 (-0xe2dbda8e9202f5b4c733eef6603ef9405665f7fd748cc7588ba5a9b1c419ad8) (-0x372b161f01dbe3b5d0cf0d9ec09f91c6ee4fd7f512afe8ec52c0322638ecff17);
ESub 0x60051e4ec009063630d4adc5c6f1c217f700f727238a23bb0ede6aa1f0620199 0x34a1ea6c5bb7c5def25d7d83f8aa47811c9e984aa00ed7667db2bbc487bdb6b1 0xdefaf170deaa0ca6deed366dcfea703baf1f868bdbf4b3c08fecb9faa4f6d0 0x262d78574a5a92c40e9d2bf292434a4dd6e8532a74465bd8c832fb0628761392 0xa54d2228f03f27c6810cc38a897e9ee2bd8fbbdf342a457d5a685d0344c6af4 0x1e844cab86160a9f90511a76134014dd189d756d21c1b3d486c76e7cfe28c92 0x5ad46f6bdb27c138d65959d320679821e64049acd190739665d4b4efa7a48cdc 0x5960ab8a7d8dc5f741d05f25c5767d810a1b865da7798f0bfb662e395ba946be 0x8edeba509945b7d13e12324caf54ee66dacdaf1799f79dd2b5275fd82be1ec 0x314d9eab34305e9645f023a9be74f524b3fdc1f06a4537abf51c8e00bfe9a2e (-0xb375a713dfbb4b775ff71b2ea5253b112db8130fc67c86bfdeff0687399797cc) (-0xc8c5971cfdfbcb7f123e3250c226968d23042d8bac625829433de21897e0cf);
EDbl 0x35c4fdb323d7e4248eb79d49777e83c92d23b826f2e98e5031a23b6d087b6ef4 0x41fe8ce1af6165da3bb0094453fba24e07b75ccba7a17997f7b1ba7b155b0cd0 0x1b7a3f4f3094044317cee3ca5017fdce1781aaba2a3f813f0ada4ba21b972767 0x2abaa3c9d128802fce54eab36afac2f30ce9a1b9944d6fc3a6ad445f1e072bbf 0xf40647aa0947becb68606e91ae2c524f567f6ff6a0dee849bd2f8bd02700458 0x4807adaa8561a47d2b7ee17ae4f0bf11e103d54e1837537a1ccc8259e52e58f2 0x15a45b4970709625dd130cbbc6b1f27bcd521bde85f6d5041388e90e60a5bcea 0x0 (-0x488ef2c64200e4fc6838d97b26b3cdd080fa0547878e3acbe61e376140ccda3a) (-0x7dd0796fade711367803cab10e1fdf26a750ce01bc6074b708e84c7a0fa885e);
EDbl 0x5995676cc7a0c8260403a3ec98d7288bcf5f7a4d5acf447f53d5d2a9d42c80c6 0x23860e3a66be2dc0fbd8c1f41ee2e103276d3b10dd19c26221c5f72b4e4a1208 0x65cdbad75e8e8b00739e404b835ebf4dbcf1940d669eb7fc8fc71e5d8bcd5028 0x54880bf7d6c7b7586d96e2024abe58a730a080f68cb47e49fbf9a06422c9d2b7 0x6eba512078392c57f9f8a1b6c75f995973aeece92615c64d6c32820696fc827c 0x169651434523b280b1e137e58ac330281f30eb79d5f51e71c4dd61452f034d08 0x2206814cf0de338e703fbe7682a295db347e1e465cc0c287bd647943c8c04c4d 0x1 0x160cdcedb457411eb60f1379b0edd06cb740dda417c0762cd0538d141c8ec008 (-0x1ebae98ab50acaa1f3116028c81947a5ac6da0a7489137d5ac7f147bbc0e898b);
ESub 0x413f444956f853d03335648cb9aab6921484014a39b712cd574efd1531e409e0 0x6bb6e8b184f1294bc2611301aa68ea4bd20a184a23b3f9c45d793b956a140b68 0x5e268da28a7af6fe0f1b32d18b411451e547d3aaf7b4f6876c93af26b49a8bbd 0x69380b61ebcb57cd9647019018b580cf52bdc8da4a7b01e81b04c5bc3ea1a7fb 0x2979fffa50f9f766fedfa83a2a435d74d6db6a6a7e652fb7b0205653c8339ded 0x388146a546ff6172bf4e05089a9fe4dede03e0b183f0ba83ebd46ffb62484008 0x42333fd4a13cb24cdac11b6b3bfce4a082f3326a42c739939acec537f5cca0a9 0x1c6b3e951efe8b00c97a34c34be8b40285f0fc0d7dae351b4e37f8ef71d4db39 0x3c5337c329a9d85ab5634f0b06defff7bb2e8ba5a344353b6aaa8ad4c68eafd2 0x22183d0b8acbd8daa48cbc89b2d4c4a969046e81820779a7a664f79aab230ad3 (-0x451d70de6833477578ec073b1317c437897a1ea619cccfc0856b7add8545a1e8) (-0x2f8ccf9749d9764bd76e1ee5784288c5b8f50be61958b6b10dfdd48df41c7fd0);
EDbl 0x551f2b301dd81a389059ce3a12490b83d8590267f39125bf376c9103c42ea852 0x583d79475cec36cd4906fc09f81db5c86b78da150637c882ef6e6df458cb5fa1 0x354e7286efddb9368517b72ef96857add3badb5abfe57909ac727dd88055034c 0xe991b11f956520d235cd19ff1d247a0cea19b4e9379a978bf6d62b2e67611e8 0x594aa88b097898d69e451a70f869eff2fae6bff3d394306f12fae4da66210e89 0x2142609fd8f3e7ff3c5904f5cd4bde53b88c7f0e98510b978cce0de788e46504 0x5aa4d2682a19b6f4832711841e857e84c91cf90ff0280b3457b6d1b7869daeb8 0x1 (-0x326eed2d549b99192bdf470d42bd26ce9285ab389a6494f7210ebf9c17591ed6) (-0x3d8e360e4454c9a5073cc6169d19a75e860dbd82adf1da0d8ab4d07da40d2427);
EDbl 0x7f109f0b2785f910f68f491fcb4cc465684e11b1827c903b875667d13da95e8e 0x9b7e9121de628d4d0b4a08229cec966954ed5a913071825feeea21060889c08 0x20b22607d3a06fa6cb87601e23dea0c9f3973ca0ce4b34a88923f138a6f395db 0x27cecdc26d6d40a665e8c2c193581c8bb1f24363125d1014603f4553a351aca9 0x71ca7ba99ccd0ff9a6162a36f797bc1be5b06c24411db6bd71b541afc5e16ce 0x389b6cf2e183dda36dc43587c40282b13b25638e4ff9577d7c849cafe74e4eed 0x3cd4a4482ab26ff6713161b56c599d55f5908497a9461f9986d73ba32a6f4df8 0x0 (-0x6e4d438ed7c89ef702c8f8e1a4bf0d6681736e802b42d0f45305791ad7199060) (-0x8a3bb6169ad37bad25b567d4f829a7a7738f6462ea4f915e4b0b58194a67f4);
ESub 0x6a9eb9ab75e3aabd8bd21bfa246ce1e1bb598826469899de07d45d5be9e3df5e 0x42f6a437f88165a3c2803a64148544f81e78564c81a59c0ecb6964ad7bfde2ae 0x1b04bd466b33cf521e1ae5b8056771758782bccbb0a8aad3265fbed7fa3a3fae 0x215feda817eb53dd73c3b39b54a56debaaa577ba759f4684cbf21b404d3a1669 0x2717db9857d009fcfde147101e3b3ab73b8b67c79bc658f7dda8efd92dbf1b55 0x461e918c72e0dd9559af16b89b3f47128497143366fdfa8bbcc2f50b997560e8 0x5de5e3fa8bc1fd8264ec628ebc35529e370fe3110f6d022fd5d05eb5907be54c 0x7c6540e7e51ba43da2a1a01bb0bd452110bde20dc05aceb325881a6b3a07cd3 0x114fc25bd20248d2191e1c73bbf4c2dd2d4ade7956165d73e824e8e1de47a1a9 0xa3172e7c4eb4264bb2dc7d9c19687a5102fa64b19b288f46934548a59a7fe29 (-0x326d239d07fa310e545fa9f4965b023d86c57c0dcd719f2e82151b27479cdf02) (-0x24aedfc1f8e95470f83f67e3384bbeb1c86caffa5a0b5de8209dfa4f366ac85d);
EDbl 0x28dea5b653a8874341aed397c2f47f0e9f4e8db796628257f92a4a613a4dec75 0xb5a5f41eb97504950630df1cc279904813319781798c75b73e3269b123d4ef9 0x284c976e4d057fbfe41a88aee0ac8063283a549243a838bbb35f9501f334b9bf 0x3bd4d61214d2d62b657e4e6d73017c86eefa6fd450989e21a12d3aea26e710e9 0x13883ea3c7cd566b8163c5be9254fc23c6c01b420cf06565edcda5e833b2572a 0x58cfa85767dea34af5f110bb4bc8b105b4c5d3749ee1b8b0ff0977d427c4d539 0x23083499c21827749424c0e522251f267fe9eb7477c648e3b6beaebe5fe89967 0x0 (-0x695205fd311285afc576c6a06cb2702738c2af50bea1556b6dfaa487e073352e) (-0x1bb7fb74bf4b93eca46459a5314f7e9c7146a42282699b076ec21b7ab1210d0);
EDbl 0x241fd8625768d336c5b2859ece0269dc744edc4f9be6f2a152b363c938292e77 0x67b74adb92343107a0e770761d62e63d08d730d97f4aaab4d7a507e2d7a4fe9a 0x7be3830a48adb348d1cfe790109c2379cf6f3dbcb89c8db8b84d365282c290a9 0x648f94dace60f5fd538084a9e50a7e0018de0979df7aa22600827f5b0d086d32 0x68ac11d085b342b481b09d19d46e5a86496ecbbd26de146d483549088a45dc76 0xd0caad99b449883d50094952b9d30ea8767abb8f4e4d6bccd6a2825a70d1610 0x101c82d90154a3d1362bd26aaec29fc88e9e8f546da659585ff2c009850ef1b 0x1 0x164a7538ca0f476df252fc07e111227ce12212ac46b1938adf0e3769d8dd9c40 (-0x54d0598e4bf7605832b7f2fe4327383ed37e726e0674ec6eb630920939d96fcf);
EAdd 0x3bdd014718f452f4209c19e01ce853ef790c29e777761c32740c4bd8b8473ab0 0x4b8c93c1892e32b7cc609986d9457d947cb624e55764b819b246aa19a83b4461 0x4dddf2fe8df51941d25cb42a2dd69d980f069ca3dc5d6470729c86c5814f4f17 0x395f6f160e9027394d85f391b11beb6407128d7acc3bbbc3dfb73982461d987f 0x11245f9befb4c11b4f2f83fffabdfb367a0db751e17f874d0df8ec117dcc08d8 0xd7fea4f5cc551459b03f6c239d02b216a918357343d01c50cb9a861f817a485 0x96de76210f70d0db22deffb81b29c7fcc3791d924f0d0028f2cd0f38b6f661b 0x52f908afa829c0d2e71f8d2b4ab584fda0ac271465d5555d7950d31bdfb73215 0x31e44522ed0ba1e87905acf597d24815e598b5a340e9ddebe7a6f76d40616a61 0x7aefa72e5975772cd6a264889a6259688b22f04aaea222f6be114ac630f86cf (-0x31a883cc678529b60fa58a67823f201290b392c0f843b629aaeb616202ef449c) (-0x7f7c6c817974dbea996ed0ebcba0eb9050a67cb6631cf205aec94562dc34cc2);
EDbl 0x770ed36ad2ef729e9d18ad2e591e65a4dbb314bfd8cf7ab049a4b5369e294e5d 0x32fa706eb6b1faa9fbef15e9cecaef808c5e47e8f11d1ce23b700de6f23fd42b 0x6efa3f1f968a0c83e76980209891f002ac4449cf676ba1cb8b17846e9b334668 0x260c52c97645f5d703e11e9fe2630bc6ede9b44a88cd086772b0a76c99245e5e 0x371213a9dfbbe9531c779e7f49d11bc441a56a7b2161669be79922fdfdf117e3 0x1bff3ac3f486ac090645cbb296d7acf15b6ffc316532169e2cb3f1035e5279f8 0x2c97578aaeade434b464582a0b3bba89ad7778446b963250380966ca3f459d8f 0x1 (-0x13714beeebc4342016bb27392bf941ceb91ef0d0ec823e821999774a5227926d) (-0x15eecf5c368632b60ac8307d092994e4e41c7528997bec630be1047b0c510db5);
EDbl 0x76a6458926ca913816782f1a3f424facb74e121de492ac5d7dfa6d72bef3f3c8 0x164090bb3d82cf586cc84760c475d2cb5083082c203fd5f7ab5327e39fa35377 0x3da4a038918bb1d5c88fb9b93dc305f35c595e53f63bbc31e2219b3c60c32777 0x7b04d2d898a9cf836180f55fef8751bb053e929dd12666511549a334230a360e 0x3d6032a0071e1dad98f13ba6b1c44bc7a8e53449daeaaa1f332807f7c2470e97 0x6ebd92d23cc5e61424e074107e1a92ffedba18e9c50c0ba719f2d7ed3b1ac15a 0x144d91d611f6d28a72264c643992b0f72b382b14a8333fac788939d624bd1a77 0x0 (-0x25f10f7868737826322c6ec151867232f82db7c0f2f35c83121576b72b2bdc9e) (-0xaab7e32d2394b349a8ef80da7cfcd658df551983ab6d6a378dd6f509865f9e8);
ESub 0x63cac90776f618122f044b0cbab2eaba4adfdbdb34be41488a509467e30a3b65 0x568fcb9e2a88bf20c1baa6f4adfd2a6e9e376f41b918d853e6749c26936ae65e 0x1bf57557f991fc150fa89dfb1624520f0a335ed51d0ec585e129ee39223319bf 0x7833a6fc313572ad23d36c4d69f7dbd5da026cf019ccab2c890f531c7fb5dc50 0x1cda8e116e8992fd50ff9c616194a841afde73aefb131fb39cc9e4ab249a2c6f 0x2e43f0b899a84e2e5ae70ad45ab9ad7721faa5502854360220d885f73f1762ec 0x57ade064466f790bb9e2cb73697a22240e89c7ebf47018a35a8701247440f75d 0x11cd4095cacf0c46bd6d05e70391756f739c0689b36644c622a8ecb6194f75f8 0x11e9feb83cd6b4ec40ec552172574cd00f2e83fe26d2f1d7f5dfffc862306f26 0x1b1889e93c31090543df34fd23433c05691333effafe35f8f34783ba77035254 (-0x4b4b33b040ffa19f5d6fb7d1cb8c1233b3a99bc023de9df6aa91dc1de6c99224) (-0x1f499f3be07a5e5ea35ed6b9ece608db394c76f468f7c1c50d296b846fb38e9d);
EDbl 0x63afc3260d633fedf83ad71541ed8926c75eaa83c7ea70314a9e5f070e88a19b 0x6ce04d15e30fc7c2c0127a5b0ffcf0eebcf3f1f19b1df3f7e9ae26eaa3bf584e 0x27488ba08172c88c94db02697751fddb3778affef28b74fd70a3095060c5d94f 0x3f61fc70570b450c64ab38da8afa84273a9a1014d9750c5d98493573b4ec7c95 0x181970cfd5987c7fcfd0367113a8864c03216015e6e9976027a62c235426a346 0x4dccf03b474d98046f325cd14241aea23457e383c6c9a901018a11b3300ed972 0x3a89db26c2773cb9df79bc44e4ff2b5a66471f5c8efb9895c3e12ca6532571cb 0x0 (-0x7433eff221d569ca5cd4816e9a6461e671c62f8061d8f87fac362917b62d9eb2) (-0x147fb23834b81324822fdbdb17d0388eddcbe2d8fd25bb6376df2e73f0fb9b8c);
EDbl 0x3ec578ba3ed413c5d621b5fade20bcbc68fe1b0438c02bfea02009390c2563b2 0x46d1cf2e3ad33763a435b0f2fef03baf50a37637ee89e7c396e6cc2c7e60a37b 0xde95f0080b5bebb649e60e13bc53855eb68499baab0ae26b625634697db349d 0x36af56e94966ce16efab24db3a896c1c3a047e9ab7e65def815a9b5ff69b0285 0x28c5f7e8c8b10f5b8b0cc3f9fec433c64e9c34ff0d35afc8cb3538195ebfcde8 0x4da2d337a2481e6145cb412904d618a3f2a2ec819c975e9e56739802b6605cac 0x5c9c0b22ea31b140de0d449bf59fc4d42a09a9144312de26fedf331f250a2c5b 0x0 (-0x95972d53905393bc54062be26d8c23412f0b8627d4a22e648f7edfe4dc927734) (-0x168f18d0f8a50e088c9928ddf062521d99eb7ab949bfd0ddbab447514879b4b4);
ESub 0x66d729896eee90b4b256708d50bbe2ba54e92aca741ff1634b6715b51bf313b8 0x5bbe8edb8f98d5ed8031069799fc0e65d93c3d3bf4475e79ddca1cc775f905d 0x7b971b04fee4d76179e5bcd02912dd1b03782f2d317af89afce9d3495df53659 0x1f0e3f582f0f5f82e9c48d8f3259c9590d4f91c6586e5302df1f09bd31e6e933 0x2f9364837ad1a7ba0c742e03c063267a3e148adca08484c299b5c96b68bdcb11 0x26c568253b0e803c798bb759d21765e82847cb23cd11eff732adc14db8646cce 0x2e62f6ba04a7e8f08f6841ae71ff61aad031e64f5f38ae9b04ed031106104131 0x38a7d8f1c8a8f91c835e2728cbf362f2a6e92b5ff207ec9c78b8a356cb8082c9 0x4f301c074b1bed7f0cde8443366a61f9834bccca1c71b9d7c4b998e71cda2ec2 0xb8afe02286bdc1323bec802d450dd41fbf1ecfcf805a02e461127597164de49 (-0x476699f3653b9f8e20e4ac23bad4667fdbeb5e1ead3cac0bcd4c00880494a7cd) (-0x1bca105690084b7a2d159d7490b25ae13e2a6f9cea9bd91efff13acb3201b79);
EDbl 0x46ed181fa9c14c7ad6f26af9d8a6f3840369eab60751da48e07669441e427e88 0x3159da64986c457fdc9a558811e02f916c3c1419e2ec7a77692bb9aa03eea812 0x6754daac34c64c65a0d29d52a58dac4dfbd7f78503d2c23b3bbc549cc2fd420 0x5af917c2f9cbc0256abdbb5a43bf76b43bc0d26d81ec291ae2bd0caeb782a7f8 0x5483ca18367f5b5f10b0918519669bef5c0352f531aefcf72f014764eb52d3d8 0x52a053e09ff77eaec6c62829ca9d71fe49d3dfa76a8eb3e48174a8be731fbca0 0x41c20ed0eb703d21e6157886b36e9ba87dadcd0d2848f928b3ca3dac5f5cf5 0x0 0x259ddc40fdb94cc69cf20e5f2927f4fdcbe146e7e70537682a6ff6364d8c2150 (-0x2095c732a97dc256241bb0eab887c474531ee3ee1d6559b138ff9fd652a88934);
EDbl 0x708ac5959efa659b950fd201d9d0dd1b0500720050201eaf649138e5414a076c 0x35ce4b8c44cf204403dbdcb41ea0e409dd8d2ae186f7e2fa34325950a3f920a9 0x7eb643a59927860f28745e934a7646631ed5948429b358d75aaa0b91164bb77b 0x59f8f56acd9a86e5ba0bb204f45d3bb6b98ab08693baf8d579036975545789fc 0x5b42b1c5347300d691975371a9e6f5539ab51c026a079ffe1e595de43e0bd26e 0x274d098dfb77f2f3296dccad9f711183146b23041a82b3b81bed083b24b7a939 0x13070a482d35d206361e8ff69cd4cad03028778220b5a5c2d8ca756d78debb68 0x1 0x198c321ea989c7ab979abd4f667018d7def5807a1e3370fc51f480c09090f968 (-0x265cb2ced7431f285d4996050d229275401630e7afe218aa7652ba9875611f6f);
EDbl 0x4bcb5fe2d71d9b1d24270b76cd89ece9aec968750ad5286dc875bc3cf3533577 0x3628ed54d02e5dfb64d0327c29ed40ab476e047ce4fa7ac02586ccbc75a214db 0x74c9f785f5b15a444862c36b7b390f8f14f692fa89b2f38d567e7df8226a76cd 0x6f8ac5c6437fffbe3cc0af9b090e3d53a115fc09af2c72505568e4e616011f65 0x7ac0ce404dcea579f45dec2f8dd52dc48c1f690f25797ec2feea66edf396a885 0x62f3703911d439fb0180a3591cd364ab9e265797c999814854d503df50d4636f 0x169e230b810ffbc1920229344cedec4cf598c4770b5818bfd4f1e210c101135c 0x1 (-0x15edac8fbdfbae5f4f435507cf4709390b6abbf4b725a4ab0225acafd28b7a39) (-0x33f096dde8fbaf3aa15d9c2248daeed603a0e56dfebfda170d2a3394019cbcef);
EDbl 0x63f263b8a78463d91d6b36e9dbe4499ffad5687c9e7f0dc45310224b10e4ffbd 0x57522c241c319711600da8563792e34a86220a1f9559bbfdf41b46e0d1610bcc 0x7830895e21a2704eb60fec74b03b562e48e74a60f3020cb5aa8d958d57f9f0ea 0x56b3703e7a156034f4cd1a7709a2771dd6f31a3c037c29aa2da77615863ec745 0x5e82e6e05872efe63ebd2e02596720ef8e0bcfdb107a1cf48319e0882e44d648 0x2ce197803f6d4cff231ce9c81f368e2120bd4e4008958b26d35074cd249ceb23 0x16ea95559cb587651da7ba3c7686c70694fadff7d4eeb27c83366f1785f791e4 0x1 0x9a8269ab728e2e11f14e4e55b296f0a44eacf7e7c54a93c5398d118d3500206 (-0x4079a5600cd6165946d5fa26768f75ae64c9b8f4c4197014ee5d91c493bf3cf3);
EDbl 0x15def7d3220773cf17caa0acb3cc1592a0a3b31a9ae0c32119b23f6609f59678 0x13eac586b39d40545275d33b9a1b989c179b72f043312898e49d2671aab0c404 0x2a114a832e3ad0b3e71e0b12079e012047f2b99201eedcebf65a7e8cfd90ae11 0x46fb06aa2f8ddfff62fe69e88b64eb40a328516495bf9eb1effb416c4bf84a47 0x1ce9bc2701530f4b7be05ed683c6ea205b3597d293d0c1c5f9a0c2df4e679c36 0x4e0abd43030ae490a8c7fd88980ff3ca4a7dcf3efe26643d7557a1f27705d258 0x3b91e8c1b3d0667726cc5372430b5cf763e8a76516e0b47399dd3bea10fdbe4d 0x0 (-0x836d1cd25d50032dad0c5b6358310214b9b08b0f833b43bd848259f041590088) (-0x47fb9d7ea582353a0a90f5aabc03f1c00a04b7fc897f47275f9fe22f5c368c8);
EDbl 0x3a7ab5d0456fd731ba66658fbe73219dd5e3049211b65cfa0f95f354b521a9e4 0xf8aa4214d8d1b29eb9b07bba973c12806495b5e821bbbcb3a571fac21c1970d 0x1e737a6f4e155fca0e0bce6f7bfa148cf32d71d00183c75b03db51dab3081ed9 0x5ed4993b763b6bc79c8a01278a24851f74b2f1b72855d82e53c6b5aa7e11d5d4 0x40611ecc28260bfd8e7e32b80e2a709281857fe726d210d34feb63cfcb09b6fb 0x3bcadb6cb5aaf70a6ba081f8e448f9bbc561beddda76b78654e966c780c2c23 0x319613f62a494ad541548fd1e61bf33117bebee2e713ec0f4c7a4d42964d3ac 0x0 0x169b4daacdf616c2ee47f3058503f017e47758cab0825fe794ca2a6947f6407c (-0x7d11cde5050a7ac0c62b2f71d166cf5f9f70e58a19a85268dea85bc1740195a);
EDbl 0x75ac8909bf1e224f29732dcda6c64471cfc2c0480a9332a5ab6262f3e4e74293 0x3cce4b3e3043fbf4dc7807940f5911dd415445864106e12c8815af37d8d2995e 0x51f9b6f0dff7f539305c619f306487509dff94fe7bc5987df47a9db59abd23dc 0x515a61698c1b1d1d0befc6b6465395db311fc0ec37a6364f0066e4a20264c9f1 0x7f60aa78ac2327e3db93651715ef0e8a93202bedbbe09dd10bec46ec67a7a602 0x1ab7aa6856320f79657719bd839ecc50919e159b3dd245e796db8fa75dbf7d84 0x1e314a28871aa0426f629afb5b2b5d4b7fd9b9f46ca190a1d63a591df08f898 0x1 0x66e69ce8cf8cdec6d063b2bcc4b8ae05ed37f2836fdbdcfdefa1cb32175aea36 (-0x3c829a5b71a2b1d8b1b3c5bb7c4462ffe6481637fbc7b236c0e6510442cb6d61);
EAdd 0x6952a974608d177fc8f5f3d942c430bf0faa89d6987b88db8e179a51379e0e6c 0x14d095f1bc87afb8f11379e4cb0b560c174344bdc6f5d81364890fdafbe6c993 0x2a11576893e1386ae8c81b65557476219244807410d223d6a75cfb59dbef0f8e 0x7d71d5cb59cffcc3e39339433f7a74b10110379e9a6be756d3448c2cad754773 0x6d319403058a94f7dcfc911bd0dd2a2856994b50a1f87d14ade15ca760721b69 0x692a7abd674a97213d1154d322aa200e179e92421f9e12ca950222fb1dc1ee2a 0x1eb735446e5a4f39c492caf35bdffb1aa8b8654b0f8f408773884ff7c2d4ffe0 0x30a508fe8d032ff716c66c7672ada7e434436ad1cd9f1a8a0677bf5fe0a87ab1 0x1af43c33f37524ac1fab28dab7365263bedf1dae07d0a5144ee00da21f7381e5 0x6b0386b1979fe48d241ab8fd56c285258c64b077faf3041aab422555314f9ae5 (-0x177a08604bcca79a60e42a1e1d660723ee304f7b520af36fd2d9699880a473b0) (-0x111a03671bacf31fc0550cc39f97151f8ffe19338a23fbc7f8d5887cbbcfc63c);
EDbl 0x7487802e30ac2b30020f70a04150ebd6d5da18997e7841b2efeb3ff1ed6cba91 0x74430345ab7d848361a1ae5dd131cce5b499237b4eaaa8d6f20c24ef666f0ab3 0x104051051506d70f56f525c5cd628ba60e0d67c2259f2a97454cae1155acf315 0x20cb7b07292b35229a5f0ab712fddd55e3bc3ce5ef6653b8cc6bc05fba608a2a 0x108b2a0214245e134369e4f1459b51afd5aed523c9c72921871f124e64b39715 0x56a9d364ebd8e8179c09443c0ce330dc84d287689e5b4b4d2ea79885f42fd707 0x36282c38c35b359ce20ff15aba9938bbbf9cb6ae29a5ec445b65c3f162f635b 0x0 (-0x133176f409af3963937b5a5c5510144d92501f171315f4904eba30b0ff1c9d4f) (-0xf06c75623825508b44a2a60c00f9dcb52fbaba9b23b524d4d85b99456b252a8);
EDbl 0x5e917a9fdede4806681bc041b0e45569bcf7251e5c74e8139d2dcd9c6596af2 0x45fc91eba1ba3fe32cfe20527b179a7a994ea367f8faa02dd1ff4b68a17bbb59 0x5283e7e902e74ef20247c18ea57b345b8c0e42ce204dbfa17a9243ddc9437a2 0x1a3c601caf2b5309458188094e526b8503b388f1d1198b940bc8c3526f36b2fe 0x1514219e1efcde1a255d0bf063fab83f4af2a4c4ef14af99f41f9f1492a27b5c 0x6a1627c49a032b7581a16b4c85e9595271926e90168ffead7efc1b084947029b 0x69999903b3d8718a85ca20a9ce83d4598a52317720bfd735bc317620653d2b77 0x0 (-0xd2b67048216fe657c5a5f7bcb555f0819995ec2047bba6eae57fbf13e62c5746) (-0xb8671c907ae2705c1de6741d043050b634f4047a482dfc5a1b5598645a6b552);
EDbl 0x3b8aea1b5309dd6eb30d30bf3596a4578ee6a37dd4a42fd4c7f0fdbc844dbc95 0x3c0c9a72fd4f9b40deb5f19f42318bb32d39b9bc09992c4c455c5fd67ed2bafe 0xd9c7ed80d807b4b424df0abb3dc4ad7755e8959c448f1d26aad82f8e132a959 0x2db5117f21211140c12f19857b998457fb67538948a1108a0931bbb05ccd66ea 0x201892a713a095f57ee128d9c7bd39808608ca2f84581eb79e8438b77b9abd91 0x45de51731704f1e985005377d3f397c39c378d44c505dd74735c00943955b7 0x26443fb14083266b17fc034a7120ec931f070cfeceac4d5720172f2769cc6f43 0x0 0x877880095bc08510289d66e70817032bf6fe8979a2f2a1b79285419f7295f85 (-0xf0eadc676b545ba978fc40f39738ac76be8567143a006de5039d8c63356bc19);
EAdd 0xd47f14c8c132ef07b48fa44bf77800c9a711992cfdcf161d5b75fe915911ae5 0x6b51fc6e8c2bf539b9c06d3f057263f1ee1ccaa6ddeae7f4fb3236f74bc26441 0x4f8ce3a4eff23eb963537a4fd21f2b906968e65aa3b50f92e151f6c816bd4d15 0x300a1528caa615cd7ef7f47f6827a2f5bdc7c7c9a14756a36ab04cab98a89598 0x7748d4613b32d7947caf8f249d0f438a47bb9c11d64dbb9a37fb4c43984b4d39 0x757337c1fce33d9e4c50ea464ef34b326873254c76e83c50dc6170c7e0d5d16e 0xf8ac1d03723e6a4c23280f43a339445605c5269710014f6a7f5853749ea7ba1 0x300a1528caa615cd7ef7f47f6827a2f5bdc7c7c9a14756a36ab04cab98a89598 0x32f862d5e49e2fc8fcc4106453447bf8e58a260dd9d9874f7f514729ca703afe 0x2cc4b50d043fb8d7b0f12b48d84f93d358fdc853707e85d1c207edee0168b9d2 (-0x331f39c7e190bdb4645cbb25d5bee7a448cee12671275df49157ceb5b5b5b07d) (-0x62798b25b7902c986ecd432544b585e88e0410bb7fae8f7992371a2e00e3c182);
EDbl 0x432a126d4d4634439e01606c5667acbcb3ef0fd1d966149e325d9e30bc542ca4 0x22bc7a01c7367c8d225e31a32809a7f9b2e1c2dae1b580960039e0cb6d2a2934 0x1db773e7076342b9f8398bf30671c672e4f71b78a2f4810c2b22b372c2f99128 0x6c1961be812abd232521dacae0f919490faf39c15b5f3c1c1647ee1dbab1528a 0x4e61edd779c77a692ce84ed7da8752d62ab81e48b86abb0feb253aaaf7b7c162 0x160c5730441b81018a6df2ade879ac1e4fa68cc8c16f05f4c9f4c35099e1e55 0x59fb468c40168d057a3dcc5370aedf031fd5ae2b7b9583ba5336b6dc14c8f8f3 0x0 0x12dbbb0df2af1fd92660323ee741215b7283e4e59a874e3fca7136f29bb818b6 (-0x15456db8fe46b29b7032cd0ec16a66c49c9ced6b8388b8a6b38433dd5303ddba);
EDbl 0x2b5fb5ddd21b1cae59e1ff994944c1a4fe17256aa02c974d58b053e07647a145 0x79d648e277e566c254f8442a869ec17b8071e46c526184439cb0c8ebd5c615f7 0x335e18c958418bc6ca79bc6e10496731b74da682121924c6fd4b9cb8540c3133 0x4909dd35407dc977230600e818ed08fad8e8db63b2dca9506b329cd048ce8847 0x15abc46be83c3db0588c447a08a3a1c9219b34e1a0c384896de70017f4c25714 0x233e191e87474fda9eb3c6d4c8697b4c52a33855a84e3cbc99f182a1600899b1 0x96d3657cb5985ff09297d40fbc6787e8ff39abe879e2a42359b3a700629f04d 0x0 (-0x1d1c3d27c8fa3706c6eccd7c5e979eb67b0ad95ac3fcea32e744b0445b70f7ac) (-0x14a0a7315c013f7f45ccaf63379f7baca31413a4f506470d0381fc50c9b6e238);
EAdd 0x59c6f017317b5c92d911e80a50c3f0679abf6012f8bdc7242d69d29945022f7d 0x14201c0944159fce224285741be9b0f830e9cfc954e11de9e17bfa06d5d6b75e 0x73b2efcf4998e9eae88d1553abf8a30598e507c8a24dea5f9df37dabdbfb621 0x14ab6d81f984523510c69ceed2189ac9338e5056a84e03694a270723116b44d1 0x7734e15d080d6b35be41173648f38a107ed0d87c51ec45501b41f1478b047478 0x198e4f882c20a2f20f5e6bc34c51a8b4cc3867ad98a67a6195fa8a7c04e46d41 0xb5253fa863d63ea333efa56c4521f8e1f8e65567926e26c497cf598b2e95d45 0x61783a4ec6511f01dd9369bb9ee56796005b1d23751ad03616f3d3efde381193 0x4a21ba48ac51d2b0f48ac631ada97da43453ed0826f7a9f36c300266d0ee557 0x133fe9d7af1f4cc9d7d70cf4cc9cfeedb7f4d93ca6ed2bd7b80b5da3ab022eb3 (-0x3093b147aa6567476d57ae3534fc8ea3f390d7c59aefdcb9634bf17c2d23ac64) (-0x404a59a23ef6e5a1f4dcfdc4ee369200df9fd1d6e29134a827f5166b64837fa);
EDbl 0x7ba8934af60249eeb75675e7d9da7c5f80a0f5e7499478c280b95a963312a253 0x5b83cd21bd6ba4246912982b0d982afabf3ddb847c69561631d159acf841da8a 0x12917f854c7d27047ecb3679f79a45c0dcb904f8ee1d81aed0b9ecba80d1cd5c 0x31b1fa51c5bf68435b5e964aa0d23d6632fd5c3a95325565c5816fb2309651a5 0x1f207acc7942413edc935fd0a937f7a556445741a714d3b6f4c782f7afc48449 0x3ef7db10cae7a02512c952a1fc2f0fa7d7d7ecbc650b9c94fce5e3c604a274c1 0x32a10d0f00cdb357ef190632a11e162f041ef6405f16b917c8b7c879d7a767b 0x0 0x1d6fe9fdcf0b58dc6ca8d95126a2f9bbcc7c3fa001d101dce497d03bcd68d7b (-0x1641246d4494797fe0b8e551b20a8421b0f98da3b982cf1a1fec585969af0183);
EDbl 0x6cee12f7db88c47df206528d7d756d6a57d3c080f228da43fcc4eddff37121d 0x79457595d3eb114cff1b5c55ac445b0352f1877107f1393e06c27c30b6f02cf 0x2c421be798d3d0c3078d560da7165ee1c8d280d0254a3000ade9687238b7fd3 0x6795c1f02cadb75f3dfcdbba5deec988d52e81854ad17893a563ec176510d798 0x64d1a031b3207a530d840659837d639ab8a15978487cd5939a855590418557c5 0x7776d9175f10850c684202e5b4f2b73c0b6d2418924d2dc8eafc9bf59f8604ae 0x416def632322e1594d830103321c7a63901145568222e3b1aa92748ab364147c 0x0 (-0xab75949733f89b068f8c74edc134c726510d356d4d415c6f828cbf169219a777) (-0x5f84df0cf57bdf492c5daedb8fb2d8b57e7066edf6bbc577b5a216d2898b178);
ESub 0x3d38b1c0c66f51874e7fd89fe5a9c1fcfc236680c0afbf9d461a20404ca6d81f 0x6a557a5fecdb3472a824ed6bbd1c8e73e159e6a2b59fe9f805a5039a1b808746 0x7556b9638f74cb27cf66a69d6a17ff8b97494451c9e58cf5f0c6d2873aaad0db 0x1fa9df7ab0fef410a65af7d11569d159c425ad2c0d32760fe6bcec9c09259bd5 0x6b74ffe8f1b5ec5355778f5720b8e967fb2c22173b9fc42a33284bb8eb0dc680 0x1bde399f78852afbaf50cff52911ce5ecc29d22cce5cde158032791f89d4cf74 0x507f281fb65667fe44b19ff5c99e08af4264dd7ff0c9b7fefb65d69c67401bc 0x61045e117655a770cc15e377bd037c02a8c13927398dc764d2353026f8c023f 0x4b2eb2a7a1bab1c9c7c13a83054285fa1109b74e0dbbc01bd75c95c266cd8895 0x1a94f211220bd980a88e28ebfedc114c083429041d3779f4f7b529a16431a3bc 0x24813bd554c0e93f3239ea56f35c440d5ce13e09527d2abd87fb2c672e87c2e (-0x1726a3ef05208721331cadadb795f9ed5cd8d5085a19fb2c1e2786bdd729bf6a);
EDbl 0x93fbbfa99f64dc86cb4205e79c0b3efbd7144cc369d8b740c298bb94120e7df 0x7db56a89ccd1a70bd28f0aaa384b91ee26baa9321128324b4a66dc432a15822c 0x671040bc070f3cc93a8084fa6e6e5fed34130133a4f0a008a8f1efcde2c502b3 0xecec9424c5cbf01461edf30615d44c74b9f7de50712d28700a4dc4a8145d3e5 0x27be8886454d82380b9e5a35f2eee4da178c7cb16222327e57b2ec7c9e80d11f 0x1d4822883ca8023cac461a653ae852954f471f2d503af6fad346aa46a8376786 0x5855cbc3dcb0c564b66aadca19915b745aa8616e9587c83cef8f7aaf45e2425b 0x1 (-0x62d87b0463e7669ba1802ad4face9284714d882d495d41c49f7b34495b3e035f) (-0x270865d4c021c46e66f577d56534ed2f5de8ae7cd87a41818fcf068de5978d64);
EDbl 0x249381815e4b1cba475fda1c544f5845a8f4115a73a124eac6c0f319a926fe59 0x3a03adcf9dacfab38be8536b09881ca3170c9220b3469476b55c08c6a289b5f1 0x62e7be83a253f7fab86650124b044152185a5976849ff4e8e1f54aacf08ff28 0x2a217c77f9b6324c0ed361ca24ff3f23a7eb10e6882433d3b214ebd36d56a5f 0x7c739bdf457623a51566d11b7d9fafdd18f90b77003843eead01fa1267cc6b24 0xab162b5c6655e28f2a764a61d63e24897e37defc9a292a71d4700532e8ac5d 0x7b755534ca6d8ac479e1a3444efbf7fdb6b99f3b3fc955375ed9b5a4381331d5 0x1 0x11653bbb8a6ba57681b052a3f5bcb840a055c7435b09b7553efbbe442e676ecc (-0x3867f654efa4fc29522795573477812275d12e35d7028b4dcd9ff3dcd5fc9d8d);
EDbl 0x6ae7e7952c5dce7537db7571a53051740dfaf89d4da25b4201912dc9278615de 0x16f2d16d2759ca1e6937a253c1d101dbc89ef93eeb2b638a5ebe74337add37b4 0x3c921ab94b84ac370f46041631f653aae5058f454d1317142c57871886eb9172 0xbe8c582d155a191f13c1fb5e2f58ac5fe020bcd899bb18f390e5dc99aaede2 0x442c719ee190ade20fcdbde52c3905017ada91778b86a404c7395ec412bf5c5d 0xa73a2d4bd36197e7ec5b87342e5fdee87b5eae75df6b34d64c4a6d6f991699b 0x1a4b559f38a4ae46ca988e298f5733ac15c91e537a22ac2027d44e5a7deaa51b 0x1 0x17c88a0797275a2b6c17690b04e4aaaf43f4ccda5757f82d4a309850ca6da1e4 (-0xc38f718d37ade31aa32cd78c99d310cc0a970afe21315cfd516ac842eeb4390);
EAdd 0x442e2f62615a0c22c0e7d0330454971deaf757631f1df5f41c0e9b0813e2fc57 0x636d0a672bbb798c049b8db554b83b31b9acfa188b44ca6a60fb975eb3be8751 0x64b1663be4c838436277188a97319cc4a139d7e00f55fc2b537fa591a3eaafae 0x5f28a78a85e16e7eba92e8430174017ca07f2dcbef55e93b7efec35c624a92eb 0x50da814f88c77d37ba61886591068ebb50a4e39279be57f52b949919785a7cfe 0x1ca9c1083bab30264b7816f645abaf52eca3a8f229e5c9bc0a0e4513e998085d 0x1be7a9bb295cd1235cca649202b019fe44be4f3762188baa7084182df11b3296 0x125bdabdb914a1b1edc61b7634a734afd3b260ff22891c6eb231f68f957dc629 0x40845757ce3ff37c8435358deb73a5da4091cf265638fb05446dc3fab087d87c 0x3c1bda1605396bba0030016bb93a97e8551ee1b8a91a8bdf87b13afceb40f861 (-0x4c3f43b5faed36223aa77c01b82c54a57ad29f67f1e91df3c032d81a5f91867e) (-0x1643b62f1ca2325e9bbe9dbe0b9195edfa1c550dccd19a72cbebb22a1250d1e9);
EDbl 0x40a282a7b2c6d5a504dcb3b73b4f52a172170efac67558854db5cb9d65235d16 0x54f62c56e6b515929537cccaf3ff8404f41c29b7e3d8a2c9318b2fb90b9651b0 0xbf115a58f59f85826ebd9e60a31ba709fed59149b5e692ca281ce70984550fc 0x1a312371662bb7f91d89eb3f49686ea30eafb113df54195250d88c7802b96053 0xe400dcbd6d1bfa0f69e11593f36b4326ec257ff43f5b025ae56be076a740f57 0x24512302a7b030b922c7c87337866dce56e099516a7746c9adab02c07b934249 0x4d3b08fb5034ed4d553efe713bfef5feecc16f4ee8ff5e36c997aa1a4b6b4ec6 0x0 (-0x62b97c86e7967c7e215f1a54e1bc3c3b5c9e54b7865b625cd391daefc39b3c64) (-0x9757117fa31196ef62c65277a7e9f92e535e037c1d1bd69cd7afab22665d5db);
EDbl 0x6ebdecbbe51d0aefbecb59de5f5cc3863b4544005ea3d756b4d11f4dd2914bd7 0x34418d57da796627a30c5ebcc6b0df06882d3c283bf7796e9bc4e263a0fea402 0x18bba5f5cbe21f62e17aa6ca7d603b282758c1b1e88017bb65374536b9e4c11c 0x3ee76d8e70e92052c26bb53b1813f802dad62f099d2318601f5bf6f6d3febb60 0x262bc798a50700efe0f10e709ab3bcdab37d6d57b4a300a4ba24b1c01a19fa44 0x20a350faf0a0dbcb290fe5e870b37d9128b3ef250203f1fbf5be97fe9143c6e8 0x3864f3a48c306df77144548a3a913e7d6cd62ab88005b58d372e94626a16a020 0x0 (-0x34c7a62526ee312b7c41be14701f9d7d6df1eb41d81d07f583a9dd3308b3bf34) (-0xf955577cb5539432b5cdbde571e2c71d28681440168c890de5c37adafcb7d00);
ESub 0x3926bf21cba647fde8367602f0ff38c251405dd90cf2172dc4bf877511294a43 0x74df064c09cac0feaccd1f1a52e21605469caa26ce0bfa95367df75b52399425 0x70fb9d9bc8ebdb19dfa0d02d1a26fc70dda8a3d1a2331575071dd6cdec4fd3ce 0x4367a44648611e861c09e563d22718d2068a9686965f94587c9d81e94d988331 0xc9fa1f6ee3440317b472b6a50a259625361b855a5508671952e0227c9056b5c 0x7592f3fc7e740b5efbd3970d6ab6794b20e07a43b6dc82f145b077d713f99b18 0x51d5ee77e33a78df1afab0286e3313e6e1abbe6b4bc5b285664ea09d41d7f323 0x29ce0aacaec784ec82704bca388d7f386cf0fcecfcc5fabee303e84fb3fee99b 0x486437040589aed29af2c534f2c99cb249d763de0ee4f5006c7365a50d2c5e46 0x6a5c76f0b575af90c20305220510d9a1b55ca1e5573109a262baa44ea994314 (-0x4ab69b7e4120260a59048e8ca00cc34d67b630c5eda2a3ab5f635e35905c3daf) (-0x6b5a08eaa02cbea990ce3028331be89806091df2ff651608ce3df62b6789e45a);
EDbl 0x69636b156dfb45574cefce501c97412f1bd9a32637fe427c32aeeb0900cc4666 0x325b718ee3a989dc2143836aaf2aaac8045df1be322e4c7ab29aaec1ff03c3c1 0x39137b079257916e6cd9b183293c1863dc13e3f54cc05c5ddeae8c772cacd61a 0xea7011b0323dd4abfcd219470942bfbc07b559ab161fded06d2811b257fd67a 0x5593861370cc4bdc52f3701147581397e46771a564a1a18f2823f4a3f8d3004d 0x19848df4b2d7e789662b85bb3444b7ae2840a87114303f5c53de2f16ea82514b 0x6ab5c001c300ea5cb432b6069b8e3b9ddc50fd439735556a36eb69bbe6e9007b 0x1 (-0x21e7e761782aed12190b5a96b6548bdab6db89391e5147e2e709a9ae63779770) (-0x21aac32cae1cdebe0da8628e473d01f92187aac5d3f44e8d34e362a13eb7e4bb);
EDbl 0x56ac2f28cb88eb654ee053238535e1811813791d23d0c7481ff2e86f8af419d9 0x76200ea57cc69ae334d8625b0d22d96f140dd73f2f986350b2365b753a759060 0x68dc44b43142c8f10e300f9fce4d3c8ec7b570f219ec99e7eb69acac874036e2 0x1fbc937f533932d449fb846fe39259ef879a45e3fd96f725b7b7a9f4bd614863 0x36e04ecb21f669e33bcb74d015451d60bfe4d4f1e3aa5d3dcc4dfd483621116e 0x56c568e7272c35e90a25060f856c855b42b7608ec4e4ea6d7d1ce2a86f3a548a 0x13cfb20b7dc7123e0b7acb569a1c563f650ea168ddbdc2c70ffbfb34bda3fbd6 0x1 (-0x2dc3b9719edf121d600a5c84766b1dff9d0eeb027836b29b306aec2eef5d5e06) (-0x32a486fe7159e27ea187218f3e81d1c9df574aa29aad8190b5e2574912e27c39);
EDbl 0x25fb7eb9993f0be9b5ef8641dd843f65354f8a61d26f2b12f016266929b12f31 0x490fe8962f6ebfa75dfd14b3baf430e1ae9d51b73450086c69feb60e22ce937 0x45cde14e8379c59c8b1ddab8355b9db73a2e4edd7127d50359c9af9653e77344 0x3a070873dad8ca21851ba416d4b2b09b9d49e740fb0fe356fe51badc369eb765 0x74392725575f0484f9fdc95e9f5712e4631b986389e80e53a4880b45e2b7440e 0x3ab046fda082fec1c857ccf07215e60e087926dd37f8b9175a4b0bd4b066e9c1 0x6d03230872799a1ff694671cc1db5665e709c3e76cf931e16548513f569a3da7 0x1 (-0x7d7c006c3c1b98a5fead0ee1656a2ee3a28b3aee8dc56361b15890da14ef1c1a) (-0x42570a35d733875794307023a0373e697adfdaf71281cd14423110f165fc091);
EAdd 0x929f162dcf05bd2839aba720511f9582695f78c733ddcc18cce68fad2a80665 0x64128e9f5f6c29a46b1a1ade069e07b46e9c078d4468f85d32e28540559f6f0 0x436e41a808ff976d6d3cefb232708d3f7daa78f53df819dc6caa84757b69c9ae 0x3a73207825f232ec4b30dd5c9590271af2177492904006bd219891a4e8a542c 0x55ee4b50e93eb37401f370a63e24d44328187ea28c0aae39696bb418c4112787 0x2ba9d850bc1807970ddf499c7463006bb0333362760fdd432949389c4dd1a632 0x9ea0f3ec0c0af6610e7e3793cb20a1275bed40f46d4f3f402d476abb7b01dfc 0x3a73207825f232ec4b30dd5c9590271af2177492904006bd219891a4e8a542c 0x2b347007aefdd8bf15cd2526a2d41199229ee3eccaa9cff9315ce5ea7374f4ef 0x273d44049016484ba2674dcfd03a21a91b2bf09874537f13af96b439b6d80ca (-0x1c73ae5825f71aa3e359814398bb564bdd652a4b237f4e7f3c260da33c9822ab) (-0x2223058847ce72524f81d6066553fc9aacad4b2ada34c27f817ceae00d46bb2);
EDbl 0x18f66433715df6c5169f7d9f85ab6f8fea2f35af42a20417a3ad674eea062de8 0x55517c0bb6163ef58175f146271885be0911b1e9e7cdbfdc71857613c9fadadf 0x659efc694c5006a23f1a299ff5fddaf9d39f3bf7a71c88b281e8f35296eb259f 0x511da27490581dbe14c8056a68ca3a2e39e697d0a1022d421ca62da4f9151d05 0x6b7ea60b4408171bd5addbca72cc5f3466475bd8f9e5a48f9abd3a526229f753 0xa7f3b0519deb39548b623fe074b2bf0d79b1b17906ef0eb0aa6fdb64f52be2 0x4e3d0189c0d639a3f1d614a4db3bca81977cdee50077a4f41c0692a1438687 0x1 0x141167993be4897d78fe7da7c12400d52466474994672649a2f4ff1e54cb9938 (-0x47a6889514f65e12ded2c7dc7f148ded19d6df2d772eb174a0da8c3ca2ab989f);
EDbl 0x17302fa32d80e2df1730184cd0c5b7cb5ffcdf80a05b3300d9e161039742738a 0x195cb50aa8d4c61809735976d5b9441533512f7adc1948c59c1939ff4a5b788a 0x6bb3618b0b7bdc08783a1bfeedfb749a79516e848432f2d958701b82a8a1ac10 0x380dad1df9abbc30208612138bb1f85198f0f6d0c91042074dfe90499ad231aa 0x4c5a4b92ee2fe027a84bf6149db683b71f9f884c44dd4f2df58e74c6f2308587 0x4de3fdcbeaf7385fae7893c58c0a8c21187ff047cd316b8b52b9636c157e8f0 0x38de6c9f04deb1a3277e41a537f7036eaf5d1319bc0b24e6f4a08f091dcc1613 0x1 (-0x13720d71db67c85cfcf92b92d64eaf6ed03ca974e18dd9669dbfe8541d9272d2) (-0xf20efa70ec1a7633187550961d928cfec1976d91c4637626c7cc1f3f9a8c79c);
ESub 0x16c4caaffd215bdedfb2243cecee12a353eff2b64a1bbe9e558693b6b2757505 0x57d1b65ed43756b07762d5ecc68aa569d793c0bcc2b30a2a34f6925ab3a90e42 0x4efc2c3b78a979d2126b20122db576121603ece59c8935a29bf8c929e1b1f4a6 0x2de3c40887109e79a129145f11610344290dbf957ce107047ce0fb32a1e2c6d1 0x5b5793d8485b37bc964b5964d3944ab53209d2aee2fc4e77e17f8a58ae798b3e 0x388c72ee06ff378bc0f41f74d9e2feee3e7721f713c06cdcfb5efcfcec119979 0x1122b3e5552bcd8c69848f747ecf10a578884d0bc76a594da20c3b2fb67f5f78 0x144a2a6eed7704e0078f7ac577c769aa8f7425fbe3476d6ae347619908492d3b 0x329ba976dfb3a4f4d3f0e82ccef8bb856ab663543a070c715c44b19289405dc4 0x20bf532e6b3f09a4d5f8bd7c8ab15c838e944d5d12c44318a49dd78fa92df219 (-0x1b3bd400f8f45f56abc6952ac74e0bde6d96254474b959202bf76e634e67bd7c) (-0x26cc1c0309b8ce39a6b06383a16df2294df491f84642405a530a597149547b23);
EDbl 0x5c06c7e88d0b85a578c4af131e5a384ae2afb95989cd94a16ddbed32aff746da 0x4bf6905e70d4136517cc308490826686feb00b26fb0509a2436f6799f33b6463 0x7eb84923c44e49afe34442ea3040df46dd648b142778e49b72c192a08f123137 0x41523aff2d364e6cc8382a74e22d6eb305107b9111134355357a0f1bd4bdb29a 0x4299f1db68e804bce4f3e78ab1ec8f6c27abf07ce99a5eb9c2b87c7b45ab8150 0x40cd43a7aef16a75d36dd5886aacb26cb4550a58f8319492f24a041f85e742a 0x3c406b7f79fe304d6a34c75626746f43a87b341914106a34cecfbb5282c77ed2 0x1 0x10a40e02e05f08bd6268ecd4bc0c3f4b74104d538c05ea0d5108b620e0c1a03c (-0x27867eb1b4ff1085dbd8ffe4ba8ea45196e81538a1f8fff5605d1506acea2387);
EDbl 0x298018a61f967b6ff22127beaea95b04642d09c240c3302757a56d697dc528a9 0x12a64c93fbc71bb71dbbd637d8b4a5c2570fc3c00c91628797390688255c428 0x2061d2097e44d8b021287b900512e9779d531020a1ddbcbc36307ed803ff75aa 0x1c8919cddb760af965120c0ec6dd9f24c381978e23b55b1825b546e532615781 0x7c2747c45d31324943e9907ec1cab5ad262e876d81d79e5bef84c80d2e61e1c4 0x4229bfba40c486421ddc6cef50d3697639f7cd9b909a006203eb6e1a8909a8a2 0x2d14cc223a0ef9704b0b350d636a496ad4a30bb3b59fe62e5c2833610b2018e8 0x1 (-0x44f9a7becfe4ff6d69cb1471a250eeb8ccdb3199c64ef8ace32642a3d181c418) (-0x1216d34f8bb2f0664916a49a86bbe72e3999ce6ecf295628c7e1a09e6bd8c07);
EAdd 0x7ea9dd8c6eec859f500b5a73dfdeaa73e360b4487e59d1eb78b60c3a2cf3936d 0x750f204980a75d94747bdd36a8e715dfe5a2867cda5c80b4833c4d1eceed552e 0x1ef3de242c271863d3fc719f7151a0ce68ecd8678d4a860bcd80906afbe72c13 0x1a8850a0ffc9f495f4afcab5fe090849b78d9696670744ed2df60d2068449ce9 0x49cd67fd20ad724fd296a033344ed6cfed4c615afbbc9a89036fc590eb05aad2 0x791cdf55fd19d3111ee98ac4c3a3050e8b2b8dece57e452133b818ca89aa1399 0xad52335c294593a926043b5a899695a3b0b7a8840b2b85b2d1f208d26ed7193 0xeeb70766305afc5b16311c646f6eb01df3fcfccd6dab53945c7386ceab0353 0x13d50e5dbc82a6b04391f71821eb1377d9e8b307d771dacac0d605fc719bd383 0xf4c51db1cd1cb1482d876f4f98678404d9cf9f0eb42869a3456da9b49fb088d 0x5657fb6a928dbe9a7a836e10a5fcca91e50abcfd7a9156333ca3129b03965ad2 (-0x6ec2b41389755dd200e9dd3c25d479dfa7bd926893c677230d8d632cbbf31dfc);
EDbl 0x66f242c7b5371371f0b7a8c2d55cbb84e7cc3914e7009c4a28419f9d2524efe5 0x162c584f9c65ed317ea6449da312cba2655901d568d484b005671033d587b6da 0x7930e0beba7e253cbc85e5904da1f10fad0bda700f5e4c7fdce679c52256a2f2 0x3afa208706dd980a64695756736fd1a3a58d0d63216765adb4fc0b45074dd7b 0xa7ec149b5efb443e9c0afe519950c0a8d4cf66622b829dafe6946ef2e1e3a76 0x7d574d9900ae18be41345fac60700c0a37a3ca2f5f7c4f48c7ace2a0f8a88a73 0x6b0da8cff89108d642be4b01ee3bc406f51eb189ec3e976c85c5040aeb351ecd 0x1 (-0xdf3b999526eb064622494be81f670d2384bdd418489e8b6e140df7653c0ce656) (-0x1d16c08c88c8cfdd415ff4a8f399d8cfedb8a3a82470c74c392504871d40369);
EDbl 0x4a77ee4a439242155b3fb380e6eea18191f03808aa1c35e5085938a641ec0a8f 0x52889d2e49c717360559c0513c6d41828180324413ab90487e40eac43f7b0a38 0x7bbee9347b369fe62146a17da0bd85210c12a0d3e5b4390917fcfd5258d50809 0x7debc859a626c5655fa309e2b248d1a293157637e06d1aadc3cc4ca3235cba93 0x22cdf252af0257f3e5c6865118b4c818702d563fab8e1a4abcf4f50ca87b28a 0x52cbe4f2eecc29b66256bca37b82bb57479d4539d1f33c0446af4b40333e4c10 0x3d74db8516c382c089dd474fe5e8782a6a68f4a39a338ea55dc297343848735 0x0 (-0x2266a0ca16a62b7d9d6d7d0e5546ce32f4890411067c4c61c9df71d8f52ea0e6) (-0x167114cba14389e70d4d098d8fac93d2ae2287d0cd33e12e25ea86e74b9fe4c);
EAdd 0x369f39610f82a97c7bbe8cf156e3f3147f48979f0ca99869cf2bc6ea7ff12380 0x24748573f0a8b771f8e33e5cc51d5a1e159f041d424a537f97e733e500941265 0x5578fbe307abb94ee4badbe6aa7e05bfd689703ac0c63f0378aba0e9ba82a888 0x5ba07dbea16c12919de166a7638a9acece0028367622d9d39833ef0365fc0829 0x7c07ff6186b9c513cf342a9fa09250a21ddf90059543c33f2d3bf4e53b02b16c 0x47fefed006423477045b5efa475d961ababd7a12e7fd2ea78b633eda78576505 0x137021b67015898280a45da33c6b050a346bd77047b73070116ea29b7c6ced36 0x4206e42507d278f80447cd0dc9f1013534668e9cdc894039fe9a5569cc626e93 0x36c3caf076b986c9fa06b9f2424fa80850ba086df5904e2f8a6906ea809b745c 0x58c93367175f949e33fc8c16535274356507f49c0eca24eff5ca4e2d8fd84b83 (-0x32651272da8a3451738f346a179d65d445ee2a087de79a2a6201ca2409d41c38) (-0x148141d1998263ca974107d4261e2397a1e8a8d76e3afdcacadc225518ed45b9);
EDbl 0x51c2f14c9fcf503730948bf6ebcba5289e90eee1a463896118f0d722052c3f6d 0x171edf5a09ae5fde88f13d1925aaeaa45cb12f483af998ac57c3ffeed67823f3 0x1dd11a4716eeaa97637d463aba523ea5868f5d868ba185d3d2499bb9ae2d1396 0x25ffdc55d69a3f02db2ba2c5e743f800fc8868fbc862951937faab4911c5e001 0x82ec20ebfab946b77ae5c8b2cf1b95b75f90b753cc10f4565b10f8f6398cc6b 0x174f1e7a8bf18307fc89184d5d7ff67e27e1c048248c6a16d4158e63337cacd2 0xa61f523a4a6721f6b6ef746a45c67bc24e6190559675f4f413c2ae44e168038 0x0 (-0x19e2f5ac0c6419170e6e425c0c19248d292522f16d3a2652c8e374893a3c7e15) (-0x17a601b597a54838d503334a4343107fe4d748316d4648bc88c626dcd33d30a);
EDbl 0x2db10d6d1540f59c652a6c10f481e4b27b36f3583db43d1a417f0ea21075ef30 0x721ff6c8df778ae40bddba68decf84cc78297c166e4aa7c1798d1a190070de7a 0x6fc886ae732b389a28691fd43ff8ae256692e8c6e6e7fcd6acbf0ebdcb897b3e 0x6a497fb6fe4ec514c89ac9617840b7bcef159c25e6f29fb43d9f7d977bdac741 0x7a80f9088b238c7aa031a98d384809978882b35f000aa2dd90e06ed9b0514bf0 0x3439e24a31698598388cb2f497d3c42a8d0ec4497f596d2ab778f774b83aaa77 0x42d1fb6936b2d421d848c2b0988b1ace3f3e776e1ed5a15de25064721a19a08 0x1 0xe314b4ff18f415aedb49b2578b38d0b49121d11135795a823c3c6f26b24781a (-0x6d39753809fdff2cabd394037a4457ac40e1f2f308928a76529be6b20d270237);
ESub 0x75a250fe0aec43f6f720215b9a271b37fa8a5b909163f3bce861283931f3705d 0x7e29da0cba4a6893fd5e48b4a06bfadac037aacf1947bc7977d48ab2cbe3a224 0xaac6de881027fa262e81efd897f0d91a9b6627baf127a05f14ad0ca73f513d0 0x41b32bd3e5f93be9a317c853e572d0a39354634525088634613dae7a66c0b1ff 0x391b496ee483e07edff4637723750fd611bf491ac30561d324d5a646518c8ea9 0x3a88d797fe4d683513778fab0aea37bf19d6aa86e70fb68c0ed7e74147863b8e 0x21c3d927a56fae942b7f87c225b5cc77431a203fbbc3cd2a329f30c518fb1bc0 0x5b4cc56d7f92d5833cb161ed7f0c6a3d2cedfcdebea21fcdfad74814005a4b95 0x6d6bf88df106ca83939664885d4bd528478df2fd21d4be2dc7a0ef56f92eb03 0x1d4fcb00b55ed92d6cca97cfcda0f6e4d63fc7ae05007e3c1430b7ca807b03cd (-0x43183f1a17361bb5d29e8730b10101605353f1f75724a79456c1c42977025727) (-0x39b1d7c58e379af3aa7e47147b4b7b631c3c066f3dace564100cf7d79b5a4bcf);
EDbl 0x2e8f8b4a7db61db9cf102284718c46325df751b0dfaab3fca2d1296879e9c07 0x539f3b2905c543ed18af1cbaf61313914f0685e3043135e06ddc736220de2711 0x54a92a7fe35559cbd1e1e26884776ed247813ee1ffda9ce4b46ec2cf0a17df9a 0x6e937a6c4297a9d60d3d30dbc076e832b5eacc7346fc685fae7b87d7921d3b80 0x19ea4fec5f42500a3b5b4e733bff79606e698d914721cb7afa0cc50888055be6 0x6c1b89e5a243182634795616304747e29e59cfb029190dac16094afe7853cf0b 0x7c5a72f8325d315fcaec0d8231c85e7d6497b20586ad3f26f3a32e53deb6edd0 0x0 (-0xe74da7ed34b8fbe57a6b7ee4643ae924863d09b0af9c9dad22f08d6d1c06a696) (-0x10ee2cdcdc72f964078596c8a5039a8dd56cc7c8e9797cb173f9f3e04824a276);
EDbl 0xfc6567077efc9553eaaf93142c43cc9a948e4caa5393504b4ff951877317adb 0x6d6cc717829408e1c22d1c39d276cd7d4e72859d9af02c2c96e821a7c433cc26 0x1b13bf289579c475f721746131338491819ceb23ef99fb95684d0f196e9c55df 0x1b4761b561662ab6789036c31d9dcbf7de2253dd4dd3f58d51e3e158c156906b 0x33a28ccbec6640816ec261ec6a47665c8568b95e39f9f7e996d23f52ba3a8c 0x10efcd175c5fbca95696e2963ee1b07afe61219e451207941d65e5f39ffd5a 0x36a146ce48be08a3ca4d1c44d6106dac13c2f0512b908107a0b2c21809c8a6ce 0x0 (-0x3c702f5fd0436536aac00c434e0a23a4ad3200debe24289cef957186d397892) (-0x2c244d5ca625ade73aedc9c17b2295bf2979e7ea327c01f4ba63115bcdb51e);
EDbl 0x2c302ca49aebab2742742a649fa55bb54fffbe3fd57547f7c0e3fbef57cca786 0x6bd243669ae05ffbbd7d93670f3179a72c8cd96b5d6275b8930149c7461514fa 0xdfe60c74cd98081aa371e6b844d3efd060ee4020c8159fc6b1d5f71bf14855a 0x6be1c42f22409f783c724f5c3cf32dde95e1827bc95df507ad21110f93fcebd1 0x5de36367d5671ef6923b30f0b8a5eee18fd29e79bcdc9b0b4203b19dd4e86677 0x1f1af96026ec50364f6704b7da4b4b05924924400b43a09a8e59930852c441b 0x5d8b9f8537bb974539b306574519ddbf609a2cf3cfc6321f461680dcf81b98bf 0x0 0x570e533f5260f02d747e23b80a29226dfb6e3ed1f7960f908a255968c13469e (-0x4f164f982b940971404681b8017c53e4acb13eff79c42f3fb00a837538a6c181);
ESub 0x4ed6c2cba2b42b67a03ade50c551ce59f1b53bfddd02ca8c156e33d4a0141e83 0x7f822f1a849c0585e0a5478469d66d333fa0d9dafdca03c41782c6c42cdb518c 0x6a653493b960b83cc5cf84b14de79bc2f78658490de433fcf88869f8ffb71450 0x230e9c5215804cc9646475ec0c279485bd3d7abc4ab52afa0f343b05d1aa7736 0x3106c54196b343929d3b6397cb57e07c667b2084648980591ac27f8289c8688d 0x3e3ca11ad14e866e748f196d8fe7245a19debf5f152a593159b22bbede6b3c9c 0x20a76eb01ac98d1cc3cdece8bb96146559be16ebc5bcc804bd7a38ebd48caf6a 0x5641cf8548b37ffc9797a91f3f5ac7b8f070adef7de85e2d42676e3904ddaa62 0x442bae993addcc4fa4175c8f2336e0624b1bef7fd44dce1f2fb83facbb4f358f 0xd6d728d335c0e4facbdfcaa2a146e56f26f7bda0d1cfcbad322ae6b5fbb746a (-0x4cb1cc6ba2cede341747ca9568ae0d70d5311847d1dcfa594bd69abbae1b9603) (-0x3dff745362db7226f0313509aa52beb6fbd033931444e49420180e2e1cb1db32);
EDbl 0x2cf3886f6a491a82908fb5c7f1f70ca17af6b3c3693c68a7983ca594a46807f1 0x7736f811343ba794b09358937c0c4f248f81ad982f5794827b8708cd4529060e 0x3a5c9ef2e7e8a50d7121f4327acf6f88d9e63a875ba27eaec0790947a42e7a57 0x6f1add3f61a12a446f16bf24e64754cac4c22ad7871076e35513690636681c19 0x34be3e4c79b88536fdf4caf26b77e541eadbf0502b6df834949a5fbe9239a1c2 0x308f25bcafa6288073a459a4eaed17335fa19eeb7ea1018306c0e7156d44653a 0x7f04d9e05e5876c1de8b6292408c3fb6b208f1a39bd44771200e33eed05cf573 0x0 (-0x8a8cca018c2a619c0099b3299c67e3cc420c49d1ee6aea39b15cc7b253367d7e) (-0x311f846510eb35bc429e22567f32b9b94580ccaea958f60a364870cdbe906cb0);
EDbl 0x6f14406fe8b1e547c8f1c25311160d24b3626b6c500fd9bcc56fee9ac0cabc64 0x3f89a9583eddb8c4144ef006276d0c72854e705bf853ed8397789b9cfcf0155c 0x7c1c113b4b19557098c1effc3a34234277044ed6fae6e2e6c7f7f9b8efccdc18 0x659a20c1717749ea63f183f549df9696f3a49d1105cdaec468b501bbe7d18c45 0x697e0f86265df479cb2f93f90fab73547ca04e3a0ae6cbdda0bd0802f804b01a 0xfc93d253186f2a0728059ec46e5308ec6d12727284d6e008a41ee233f5ad4cd 0x6f084cdb2c65aaa4fc5038b4fd67beaea7d4cb96fa04ebec6e0fdb8d2096c89b 0x1 0x7d094ddf765c22285ed1c01f04f31d5bcfb26b84ee8f5aca66c27f03d1ea57c (-0x345d8021cf70e538a206e4063b9f9e9a135e3e692d245351cfe62768ae328b51);
EAdd 0x724ea8bbff62206c1ccfe535fc6af2887c4722b36e58c9624f32a94607fb3653 0x6aa88d140059b0a9c18d3707edd3e645227cdc3abc1e19a04479c9bdd91c9854 0x7b925bb60cdec18a01ea0fb7dfac52c1c9ed21258ef4219218854284d302b290 0x6607baacff17c7034372599e85f0d6c2043ec0499376579c792d494a63f34442 0x977711cf9c31c94fa12305a344c85a3d221b8a3ff6d56852bb1fcaff9334ab7 0x3e52f26e2265f6bc4f9b1fa13887d2c37477ea86c2d5bc44bbd3e671f5940bb1 0x1cfe86ce0ea25b2e08aa2f76bc7c3557ceac8ddc6128afbf2bba5d632153cef8 0x32d48779cbe493d0103f266b52bda38ed10b8d166043246945fa161730c01116 0x4f2d115831f66bf17f886129253d2a684eb81e4f16f3ae100e692312b71729bd 0x78bc079a258f2d7678f504ac9cf9b497e059bc7c2be75fe7929f07eb4840fd1 (-0x31ca8b882e6d8bf3f37b3b7e1abb577baae6602ee5d6add859fafdd32c85f2ca) (-0x33eec252813874f2c07c323822023b1904340ea3050fc060f7671b0cc7e8b89a);
EDbl 0x13207bbcc88a17aaf51f1e6e1af6e237bc2af0b809c30e0f56d3816abf48065b 0x150883b2757de888e3e1b01421da4092c4f1db4f9d7b29efe241fcf31b6ffd87 0xfb09deecc19ed481de0dd6ebb9f92e687d552f520cdc3e4f56ed91ce8e90e1f 0x29a1575d9fa4cf8e2fddc1b1d6d4a2a70a8cb7ca41d4f8e8409cff47a0e7b1f 0x72e977870de05fb0c51cfeac61cdb743e8d37887834f8ba98e9af6d791256ced 0x66144ce562749bd7dc713995dd187003a527cae2f392be792eb7fe033330d6b2 0x58e0079c10938bee9b6b6825cffac9d73c0fe97b7137cf6a244464f912caaa15 0x1 (-0xad5380b98fcd21e0d89e0a36183dfc9e837b486461508e9a47e123a09150affd) (-0x12e1f26ec7308dbe233222d123a64fa0a99c111729a5c77efbaac3ca7a402577);
EDbl 0x472f3e7aa658b85d43d710ecddc9f2c80c2d976ff2f516c512e69ccce0429859 0x5cef714e79179fdfffd20e06800d48970b975a901240fb775aaeb0030f812bc 0x335bd73c0523b55aa65696f81538ece4d7519bde7a1e549134c4bb20e5a66dfd 0xd72b24b709017ba88cd19bed30a7a51025f6853c96dd77289504c2b5ff45c1a 0x5a16db0f6b6c625fe27682c6bdd18d6c2b0dcc754f4f82e1548b910a7a4dee0a 0x2dbacfa618b2bea4b9200d10bf5e4792865abc6d4c2968194b9bf5e9b626c4c 0x374cbc78c5c4156e5e2221c70213ce9c6f049cb40d194a19236f7dd1bc77c93 0x1 0x2bd0b9db2615f4f45f9f7df01fdd7902179776becfa5fb4cd5d43e66a056ad80 (-0x4168f3df848bd105bb008e2ef1fbb99fbd2a81c60351730fae96f98048fe2f3);
EDbl 0x676f284d823c4a1e4eb2c4577ddc8cb5779a87002e79859aa795aa29827d382f 0x25a26a77c833080ecb1f79b4880c0d52490d866e00bbad1992f47d459c9b76fc 0x4bcebd947bc3e72a3390f6cc1cea91eb46dd8df0614e64e438060817dc8ed6ef 0x770fff377e90a5b655220d1939c57c8f841b63a04987b4f2f8a50960cd81380c 0x2b4141a302ccbe8c2191164d1cdaeaa43d3dd5afe839500ec09f0148f0f2611d 0x27967ac0111bdc5abfa88fe9501c26a352ab06ed359bc98e232637e9539443ca 0x4379f2ca536ae7f4c5de4fe41cf6f586478c73556c8359d460f15dca196194 0x0 0x1c7e2f426828b196c9aeda5ef06b9cc0e4f3fc6467cc88b8a151e86e77d47aa7 (-0xcb7bf8ab5cbf35bc268247cf7954294551d32ace801537f56b944c2da10adeb);
EDbl 0x2363c357cd6f1784d721e10daca6b985cadb393a7c55a5034b2459a7a6ffe007 0x3ce34d4e7b50d836726b8b535a6336f56169b9ed252b1b6cfd27e45066dc8088 0x5f45686f5510c9aba77156429c867f4a5100e5dbe7b5eccbd46421a517bda647 0x4a506ad9db454d9171b789d32818d1f15d1caae0e8ce88876a2b7ea95d24d51a 0x6b0b026a863483e5ca4633908b9252a70c1bc50501189bbb95c75d0445672ec0 0x53954564b0b7882e3696e2a2f7481d7aed64de6f527387a3abb5117d05f96c82 0xb10b3a3177f1580f03b637ce6c6b7b8fc6eeb7327849ecf2250b4cf6afbc40e 0x1 (-0x1f3a5033526d0c3370c66564a9bc6fdd2695cdf3ee655152290bde174b685568) (-0x32eb3f4e791c5c9efba11939bc36b25877bc958c9ae3b872dcc86f0e2b3e9d75);
EDbl 0x4dfe52eab98fde86f16f9ea14297036db790a37d2b2ad94cc6658fe4e060f896 0x6ba4bc28812ce71dd938c20e036722871e5ed9af94092dd71dfc7befe764e769 0x50f681224a61fddbd0a0e0e7e4ab862493e4d49c34e02dcaddc8ac8b20cf6920 0x661ea4f88a41870368a7e5e380ca67baf7a2bd611ff3946ff885fc53a18dd94b 0x152823d63fdf8927980704fb9c1ee19663bde8c4eb1366a51abd4fc880be702b 0x9c8dc955a484ade0f863f4b9725c2ce42dff10811f31b140739827af240e735 0x1cf6ac1df4a9c9edf1d93ead7c414148c1d9491f1baabbffb9a1a0ffb061fa29 0x0 (-0x14c708d0163b29d6258c58eb6083c3d3a1b58458dbf295cb84aac3393ef88b76) (-0x11cac87caa6e73f0b8cf1c1784ac5a3f0f9dc642cd773ac1222f6dd583dbabac);
ESub 0x672c47a61797e935586c2bbc86ad8a4685342712998af340572e0a6a5892359e 0x2fc18e8822d89241a9e0a8ce1ca0cfff5d55343aa8dd2d0ed4cab6deb7c2214c 0x451ce2fae15892e51d2da82b3d47eaff1c30b3249fac8720d1148c730249a9d9 0x3c83c9ba00f0b8e4adc701a4cf85b538e518ae26100757df4b30632652b71f8b 0x1acf5b78595d371385192c788d31e553df2cd258c87df5c46914bd7ca0ffa0c 0x4eaaf8df360eafd7eb43f697d5cdaf8e9f23540de86683ad5e9e3b24d2798b0c 0x39a2a581d7c84f63b4ba75adc84743767ca4a4191a5963e611a8c2d0c818d9cd 0x561d63539a8a527e47609b3e691f4ed27eb247bfa9a0f178e4c9fcbfec50b921 0x2c485ae702ebeb7cc85680244e6fda4940bf176228fc3cc01c51f801599595bb 0xcaccd589a3579f33b3421f06987f05a3b97394b9cd42285846a9ccfa6b0458 (-0x4e880c78327f2226753dc13a8a3c68d763e8b25eff37a07ee1db5dbf432f7dc9) (-0x1d59bcc68d93785ac8c1f978897eb5564fc57f16b69d37c921c7f239e8e06548);
EDbl 0x4fce5bb227bd1931b6a6769e65651897f196447542b4c741d7295ef834c00267 0x7e9f6014171f5fc8208911459dbe782ac61f9b5fbd198cb59bd0af29f488f28 0x4efcb364acd62ed8469bf3b2cc7aaa5a1a02d10560fab92653a57732c9a511cc 0xb0019ada8430e31663eaaac00678bf817854231f82010c340df5999626ea287 0x3c036648fb6cdf591fa2b6f933ece19dfd82712c9725579ced39e26698c990a8 0x532952a0b843cd73ec103d4fe1fa43529d782e8c262711294dd6f0d76b460398 0x11d1495c6ad6be9be0fa3e09057f10538b6514f97eb60a198e942093cd6aa10d 0x1 (-0x2791b25424ba7aa5d0fd1abbcdd7201c536341f89e5fb7abec8b3fa8a4be5018) (-0x3b5e11f4de3d872e59b4c45626d1d330c206a156c866c214e573770d1e442ef);
EDbl 0x4500c46668082ee2cc84a7a8790f78eb86c2ade91f4052fe6ae39a5bd373789a 0x556864f51cfb08b509a0c71a2ba0974e41d7887296374233aa169879fe1c54cc 0x6c3f0a7e3a9ff8ebcb5b4eb135b6fb78019b1d1f9403e543811c5629f81d385e 0x5e6399814de93dcbea990f31c0791f4b07dd4807d63d7b36a81a6f0b9f4dc011 0x72248f03134944e01f3dc0808ac223d306422ae8423995f326fe18e1a73087a0 0x31c205df502d9c39e79076e8b9b49aff2b637e7f8b15781b64b57230a8b720ff 0x7d428b98878d5c5a42e61bfc548e01f04cbf6d86dcd0248a4b05f2e65af30b 0x1 0x33aa142ae30de876e57e805c64d9661d33902a07df038460cd293bc5531ab250 (-0x4c295eb360da50f5c85d86fee7474bc0894d59e7eb06c884cf073607aa887ad3);
ESub 0x4380b746c20a99125f8362d3fa3d5c9f4c9d7e86640c32a7d973ed2f01a46b28 0x719a9003e52d3993e3496425766f752150476c80ecc32e1c09c0baebda82f7d3 0x66fdbf6e3916c839935e26f1852ab0b4ce3154c4a3e596d58e1a212467307f98 0x445383f74a626d5da14d6c14efb3ac3e9b12d38ede929b5c88121394cb49dd70 0x1d6955cfe6ee97025f08d4a58a762e408734f46ecea1bf6675dd88c2fb2987dd 0x51d62f61785a985e1ae507e48b68af812386b6f68c70dfa55333dbbb89e12fb 0x32fdd994645712e64d21092795fd811b50bf0982615506912d023636374491ee 0x445383f74a626d5da14d6c14efb3ac3e9b12d38ede929b5c88121394cb49dd70 0x41fd503ad5703b027cf05fa357a3f8ad031c2eb1c57b331ce3bf5785feb7a237 0xfb32636b7ac5fda18548e5903bfbe9cd4e605cd38ebee5cedfd8e97bc9618e9 (-0x739e90850bccd881d8c1643e9a367b04baa87cab93aa2e07af44430971432a04) (-0x48a1e798805da6121a7af72b330f66281ada00b936bd48216e655d0df93d4ae);
EDbl 0x655591b5d298b9a74f6e84f7c6a06d55024bc4abf8ac2fbc9fa31e16a4f9d409 0x5819b94a245e4dbbe99b9519a10aa0507ceb6652eb0b2f4233a02fb4d7478e3d 0xa7c41ef3fd920091e236c0ac90e11ac1031f92f7a434d6bdb251672657b74a3 0xc6d543244dd19821afb208a50579bebd7a6be488acb5ddb26f165dc0f9c5321 0x1f112430503f978fcd7b47f87498a3fc774c5191088106f4bcc4f69aa20de7e 0x2399414da713a765102ca8500baa0e2466e81e81890507e775b4c9dbed55f271 0x64d3a0ea0c0c123fc327d1bea72b8e787223abeb73e532e51fdc7248bd8c2ee8 0x0 (-0x7648c482cdc1a5b50c670b147d851507b5803e8717496598ed1a13dc56148b4a) (-0x156207330da5da2adabc10af06984cb2433dddbef5f2620cfd150bc85c05690);
EDbl 0xa87a1be6eb2573ac6ecd5c9ff0877682a19a92ae140962e8906f3b12a3bf3e9 0x4cce80fe32a5dc424dadda1512e1c8e568c3aa178ac781183e139eb9635b8063 0x571dc90cc1f51c21ed0c8c0ac6187d1c558dbfbda5642df131eecdcd485149a4 0x4a80d5cdee2c6d9ac149a8d8297a33ca9c2413dfa8d71e94815c07759ccc6eff 0x73630cc12c375178d43d1ccd6361b6ae469654220372f0a34f6d39a8547b2548 0x503943271bb3ab3b9299dd299fa02b7250308ca24df53f8059f98983c496c1c1 0x3ca363f15f305bcb6eaf8f8960efc9090b74a52805fcbada7502f717bbe42472 0x1 (-0x820061e2de43043dae6e859e1b5b4fe99d861a2851b4376e2e9f0d13ee407c8a) (-0x453cf7436c1ab229d505dc55cf853d91a7bb918708d7d8d730936a9ca8fc84e9);
EDbl 0x6f81decd2d1c7a4e793dead29c42f4761fc121c8e364ea6fdf9a2afcb6523e8e 0x72dc916c6a909ec64fccc76b3cd948483371da42a5ed56587e22bffcbfb703a4 0x3b00b318058893fc76bf923e82904cc012490c7f96d18aaf9128e7fa989d7b6e 0x79f8dc86115d9f311b5de76a132d3136eb275744e47c68de76393fd1089fb9d5 0x3ef8296e0bd50b34a49e552b909ce476d8de4ac54daade2ee51057d670023e67 0xddc0fdbb5f879ad3aeee4cbbac714fca5bf5d9826477982f3a2ffc185bf6cf 0x2e168655905659888079a80e1b08b2aa2ddc2ff9a142f44bfca4ecfc4ffe07c4 0x0 0x2a380dc6b0250524c949efd33021e4a15f52bb9dd55564a691e43224f730371c (-0x388186f7ac6c5a01176a9bdb71296988a2bf90fe4290a7377da2d16afb054bf3);
ESub 0x3fc42d1dc578fb470be8333c0a0c28c174578958cc0612be1e723a2955f001fa 0x1594a187c1f55ebe2760df470d49b1201a51badddc729d8560c7720ab121c870 0x1246c8168678a3411733774a3e2269944adc0e76e992d4f042e01ee3607b763f 0x424a0df055407f050ca3d2bc30add36cf5f4ae9bb7f111e064e89996ffc59c87 0x10deae4651308d2bdbf418123098fa07db94402bbba19e6c7c7726d6a340da8a 0x714f59fc0ca53df08d24a4b9deff7c64198119c5b268fa8661efb9f7d7f7c3af 0x5266bb103622308d527dca94d9dcae29bb6ac91460486c7c7331313710653097 0x5be3a789eeda189ea63d6c55ca476d068f8e4835518aab79fe823330995f361d 0xbb5d564d94f3faf61e574dd0295d2ebec0909f203239cbc8f395d8c80a5e57f 0x8bc946f4cfa40c2d47e0d1c3634be1c493b847407b87b5c87c9c5fded205693 (-0x75a3444db3f5ab296dab1b515f15a7a810483bfdeba7209b687111d04ff0840c) (-0x131a97816214866525b71050b8cb71687acccd56bf32a6382509797dcaafc1be);
EDbl 0x52ebcce638e343d8c62d073aeb28fd127cb4015ce583df5c0428850d13854ed5 0x5827e6a85b700fcabe143bd3367151996257355e3ef9bbc51c23a04007c7aaf 0x777275f42260a626aaa66d3a8a5485c28cb927ff489314d10dddc96cd201805a 0x31b57dccc61140c4d73ca290f4da2dda9ab087375804a2a98634af9046dbfc2d 0x3a4307d8a3b09a9e2c9635566a85a8180df75f380f718dd87856e62374da7bc0 0x1fc449138976cfa13573b1ec6e2606d718491509270f71c89858c4e5522ba9b2 0x3a37196e16d1e6b0678d584cb7fe451c79bb050553675dab5e9f9da1c79efbf 0x1 0x103dcff3f13f5167e111613187fda6b4b4381a67d815d09932665f79cb3a0c00 (-0x28203ece683d85ff0d9f4506af32589c8a7cea482bfd2c7afe84d2c505b55ed);
EDbl 0x328311710f4fb7e4374e61af0f01b4113f06478707a376344865f40d0e358428 0x36017a5ecfff82eb0417cb5812ea6be1b9938bfa3cbd527aea3bb5319c91a089 0x3a88d5342236cc6214f19ea231374427cf3cc9ba2dda098afb6d116641c7937b 0x1e80d3078a3b46bc693d0499d842a7f7d351e404609d60cb48c91057dc5d121a 0x63f7fdd368047a5a544b65f7a70b63d004151a4a32c357404d5bfef19a957e8c 0x35b7d0ea9e3b84d3d028983238be74af12bc54b1adbab5050ffefbb7e01d6cf6 0x3cb6e997abf7b40b65236e7276b1417d9294111ac95da41d5f3f480a8740c3 0x1 0x204fbdcf2852a1af109bc4075dc63021bffc625fbfaaa8a88b266926512a5c12 (-0x2a2dc697960734d2afd5ee26b0c7d815d07aa7ce76cf7f0030c0790f78a9cf4b);
EAdd 0x228186ee051ff14e229513ae97e899bbbe33c3eeba62e25aa187da793bf7bc63 0x39af13cdc3e32d11a6c4f51df741f5696a1d8a54d741c6d47db65297ecd0e730 0x2e7850c1d04bfd5e0cd9ca6549786c04897c6445f9e0edbb0be66b380dcf4365 0x2b3461e57332cf2269aca2acdbeebcb494760994fd6441fbee962a8e16dae6d4 0x73e0846ee1aa45e5aae197720ed9c6cb219e3ed2763535ee942ab56103d814b8 0x1ab501c97adfceda01f0dc235f703f893bb97291d8e9e78bf883beb4f22f2ef5 0xd2f4fa6552d035a238f69ac30fcee1d6c0f63e9c25f05a40a426172b7c52ff7 0x2b3461e57332cf2269aca2acdbeebcb494760994fd6441fbee962a8e16dae6d4 0x1dc6521a099a540f730387c052b98b14601cb87e91775bf654cc2e212a532613 0x271cd852e92d8c3de7d6623705b773bab3c84ade14088b7ba6025c5f2abbd3b7 (-0x2f4e85992ffe712e86151d48655e3db1d6ab21b97f4d8bb3a16c6f1aab4ff4a8) (-0xc092265f7359427540955644934471a8f5f395e147a570ee91c61cd180bbabd);
EDbl 0x126ff0067107bd59d0bda2d954adcfb19be1ca45d169f90f3b24b0dffce5b635 0x1fdc65578c8cfef58cd7f54fc29250b0fe8c16eb55f575e4486fb632f956bb80 0x3a56e302e500b8387403ccb88f1e610af27eab3ff7852eccc15f0e11625b832f 0x4f39b3bc61b157404ad391a7989af68e70aa884cd00d3dac154a489282a886c5 0x14e2d0b97cb09f07d6cfc4ef097c95837e2bdd0cd8880edf53eb3a81204d0396 0x94d52c0f8b761e9d41660bbeba951803fe8ba6831532d7141ad7c6a8fee5042 0x19fedd1b6c2a564105a0c76d4866e96ed87a0778652a318d71a76b6ed10bd5c7 0x0 (-0x1c1797d0e9246b6ef1c9630f6d26340d5ad1f5f3922fa7c1425ae8cf7a34cb1a) (-0x532e4ececcc6684ab9844829a1b36306f71c9dd802df689fe7f207880962944);
EDbl 0x56cef4beeb3de11659875735371548b600de8b9731d9e43dcaa87506596b7b3e 0x58946677980578b96c24485081813dc5717a301b171f0e2a1ddb736d45e09dd0 0x5a8889dc5653c625b03e927bbe7e0d4dc6df7c1e5ab3a1e004ca2c93c1f3f056 0x1400eec7798690058a9a423f2895c0fc45cab29e131d03dcebc47a929e363f56 0x397864eb2332c9dfda5bafc36a17b3ae7eeb367fb86961fce6fa4dfedc424eed 0x2a7dd65dd0e5eddad1598b0a7b32585115931ed2d95567e19dbd5055d56decf 0x7ee3c931543d5db88a7e2470233ec947553060f8144c36516493b495241ca12 0x1 0x1dcc19358a71666569ee5b2f24ae8f588c639bffd9dd9d16ad5069093ba8163e (-0x27c56697faae3ce9cd316f007ce295daa46e208eea4c8f48dad992f73093588c);
EAdd 0x6702f32f39888210a4f3ea3e7106a9f120497864c6f5d0fa9ab6246c675411e3 0xdac231fdc87c98b65bb2bf068df003f43100ae917457f9d323654be9ca3053f 0xa702b261c8f001847356567ba39d9f7e7c156b97f97a4e7719afd3ecb42f0cf 0x2d43852c799dfa2df01d06a6ce00fe378dfb59af45b271bb4b15f5f104b3b177 0x21d56c90151eb454d9a5501fde896eb977c4785eb9cb5cbfbf54bfd0f7ef6f3f 0x8ad96941044bde57b996bebcc0048e60d61bdb24df5ac2f84a57ce406344682 0x16a8b60cf0fd318b5b3bcadd5e11821a1748dadc9b8a1c38c67f834b18c7fdd1 0x46dd1ec6133793c789b6a040679a97d12794f348df4c0b54e4af8f8a9e4d4b0d 0x6b023277db37ae38aaeab3ab40e5252d658587706df72284f3288e60ea80106 0xbf6e114ff286379bc168bb75e6373511dc874383839d446c2d23219211a1b03 (-0x55958d1f5b674ce1e21425086a36f57a874bd842c6128baefba36dd8ddd8bd83) (-0xed4cef00c75b848d79671c99dfa36812849f433f41caa75f872dd201e07279);
EDbl 0x7e62c01adda07f2624af351e675f20702e7ac727341700d08cd6fae052acfa29 0x69bd849b7115f547141ad8143e87dc0bf393511dd8deb38f9fc77af8895dc1b 0x6f448eda5776dd74b2be49eca7bd5dbf6c585321fff7832b706c4e3c26c36bd4 0x5490db2c9df052c221947c7fbd240a78a0f7a38009d6f2517037e7903602b9a0 0x654c4c524679754d6ed632931566acb9349f505e09df6f25ffcb99540f3f4db9 0x52e6bf716816dd7581f0908ecad0f0e09459ef7b5dd1d72592f25916ef14d0a9 0x175dea0e80fb666873c9bf61b2e465474c2e66de100dfa875ea16ba8359f545 0x1 0x4e0397b715c284777e2bed7d711ab5bc5b0bd2f86e372455b5b892a90b40d1a3 (-0x53ae9235e1e3b1e0c3550844bea3d6b9371bcff3e013ecd4fec8279533948a5);
EDbl 0x468448a0c373376e835491646882a0887f67ba151f2f0a584a6938602f1a222e 0x17d0b1be13f62d8161dd47c786476550ab196add595967c922dd2be6faa3bda2 0x2dd60bb56e51dfa62598d9d931f228573c75831f59bd5bace8933672006e5ad2 0xa9133a713979fafc97be160d6f42a7bdbe97f4e6b4df8d3c93db96f118bb470 0x5cbb27f1a545c009a3e30787a50202249f73fc2f11909d26e0aa82fd111d598b 0x7ccab6642dc7f69ad10432b7ccf0d1993028e3d0670cf9b1da36370781bb10db 0x575a062929f3514281dcd43931e0defacef497888fa1eb4b3f451a05bae8ed 0x1 0x26092b2c753cc4167785743ca1f33ed6d5760a3c3192e2360240c1b3a0a03f24 (-0x1140d212d5e0ababbcb4d4cfdb02d8491e0c299f52b7aab5fed847be66d92a44);
EDbl 0x30a30be131d1087184d8cd69ec03d15ca0328370aef2c99c58a2cabb38925860 0x166788909e16ec61398dab2961c7eb3847ac35c94b45cdae9f8490f8afcfbc2e 0x6dd86107b0b387e9ecf78524ce99e03c40e93244553f336a2352d2448820c36a 0x2b4f7e5a74212f45000f5bd9236887a6b008e69b8333eba065f1965456128a04 0x3d771d52c36da75b1317d6b454cea76a6f1fb4572df4b836429ec40fcdf1c687 0x26d93825ca8ec80e9c6bba13931ddcd2bbf069bf551d45414cf77f65b853d102 0x46e5422efbe21e67f776eb0e2b24f98a1ea421bc3428880b785b1e6c8b34280 0x1 (-0x2e2857a57cabde77a344641a4f38edc0308ea0b2be8037f1e34fa3ef9913ef8) (-0xac23077d34311ee312b55c22ffcb0a7ed608c845530423acb45fda5601b4824);
EDbl 0x3fa456c768f6e648059518150d0d76be768334d9fa66e79a0bb1d38199daa1b3 0x633e34bf42e6e2c37a1df31b85984367d3b63be6679cd030fa2440a5b435f5df 0x33a21c0857157d1e7787128ee851e0edd0073569d76ce94add9e40124ff48181 0x495bed6069bcfeb5771f05dfc23fa5a7cf7fe8b5ee12230403bb75d1c97d64f3 0x15b9d15812a78196ff97f350d9edc4b9ff78b34c16a539b9261d35bf7988e372 0x127b18992801e777c87983fb6542ba3d2e68048ffa563944f77df6650542a69b 0x3ebeab010ca417b0564638f36b778d3783f58850165d20f4370b518e583ac75 0x0 (-0x639606ca4675eb822df4b0c2120f4e155c99ea7192eac67a2411e48c296c9b2) (-0x10d846df78c3c0b048ba8cc135712f65b552902ecc4bb0c954c7da8e45eb4094);
EDbl 0xb80a6075eb26dfcf5764e98d2dafea6e50dda7e8fe4c5373c448ba7f71b47e8 0x6c91ba8f426a755912c88b7dc8f9d7457a0ce15b18a530f3bd97e37e4e08e272 0x33441636f0f12f0cb44fb44384a07ddbaa90db709ad2a55e541653be30d4cef1 0x2c9f8177280b9676cb745d09fe1c72a22a6a955743bb000cba67d3d56f9d9a81 0x795b6b40371a676a1724a8c6797bf4c67fd9b9e6a8e85aae665180173ec8cb7d 0x1fa4986ae5252f117944f3a7eef0972f4ecb1e8f892a594adeb1f5a656ba6e18 0x4cf257d30a827a977287edfcf262068aa828a9d2ca4701090362d046a337bcc0 0x1 (-0x57c83dd7ee34daf0ca60b8bc4a61dd0866ac993ca7e31f06c099ad3df8cb179a) (-0x66ef4cee582fe73e887a5a77b6981d61b4f0b7469b9b18c330064fd555165618);
EDbl 0x29730489e1c13108a465119afab41c145a868b40eb7eb60bb1a1a14e59b5f2d9 0x25f0bcb5ba678c301599b2eba05bc9b765c58dba90f06e851a8fb83f2eb2b51b 0x518978c23eb5e8b94b4580968954bbdc3f24abed42efdc4c6d0f2eb72e6bf520 0x698b218dcbf5eebabc63ec7be9fabf8330922ea34e79bd3958e3770371f1f302 0x1801a8cb8d400601711e6be560a603a6f16d82b60b89e0ecebd4484c4385fde2 0x1089dd62a5f2dcee2f670baf9438fd1f6c263ce73e5af418dc4d48ba503dda0 0x5c1690bb7c8f18941ae02cebbc192ec79f793efabb3aaae87c39bc3c94c39a8a 0x0 (-0xbbd2ec376e440ca6051319f72740d606c74258663bede2660a8f1ec69dfcc86) (-0x71da14bd9b6d5fbe5193ab6d3f553d2a7560e97a68093c8184e54ecd41e5d8a);
ESub 0x6d47d364661f6e412d7cf52917118da4f22a87af1b094fc4250c15d605ab1813 0x55dc4e104fc060a1081adacc0b44077fc6f0c25ee6d61cb1028f6efaa4aa86e 0x67c0cc5733c4c5c744e35c28ff86aada07acef4a224502443a19d86701b1074b 0x1e5a309161ec702677ae28bc80496e2c516ad7c873f38b9daed960328bc22a7c 0x2cbaf50f29fb1c339e0f9345499fac43b95d72426a6cc4d715c8da57a721f58c 0x3313c1740405518b8f4809f6f03b01fc14fecb451eea8e21b2ba3b7bd8198fba 0x1ea14b4380689c12be27ee95cf7e6df8ad9abd106bc955cfa9bc5396215f97d0 0x1e5a309161ec702677ae28bc80496e2c516ad7c873f38b9daed960328bc22a7c 0x427a49b861505739516126a9b3d3f99cd3675cb33ebe6a203d38ef0964f17b69 0xa9b55dcc667f7b1ffe67b0380aa93d66642bbf39ccb068a7f878e02bfa559ae (-0x1196d0b54f46ab84bc3dc52f97e3b764ff982b541cab7760883c133a752f65d8) (-0x22430792164047d56f0cf1da07ec533df6c26a723c8f1f3550aec8463fcedb9);
EDbl 0x537f3bb0b9794fa1eb06259328a3e6dd71cdb8c1561d6d44c1b89838a988c549 0x51a7947ecf49ae54f6dbd4c2320b083adf19f71d434256e3178c9968232cff95 0x2daba3bd622f5a9bf7c1da040c2e496a95306e790f5323a8664bc3ce045612b9 0x509da49ed9b67e6176c4118225661741455b31b67c6b30a7a16cf1bbc10171 0x52a4f9e73caa5be269b4ea0d75f71cacac14ecb8a72947884155a923b76aeea5 0x5d4c7c54de6c2214d3dc8f68a76b5b973ef350622a9bfc9dbe0546fca316c370 0x399812da319988e89fdc8972cfc841f023e6d8afcf780970e362370b3a8cbf 0x1 0x2cbf6736d4454ebd983362fcb4b5827a0101772f76513c677e163fae8a9f4b7d (-0x34b899430144b0f773941321ac2db247a6d4e061c61640cea2987d073f0cd30d);
EDbl 0x60ffa6c622060170cc0a9116550f0ce828bfedf8fb3df956edfa5da5b1299624 0x2b030129342ad64944ad5a1adbb75799af86140c140d62b13ea94f3c0e257311 0x7429a422211617fa220c318b6c411f42a328cc785baaf6925af3fbcc8d8db9d9 0x4dad0e14675063b20aa859d6a2c6d10d52fbb029df8b110d060e629c1cc9b746 0x598369f2463a4bb7e89c284b3685b1caafd2e3b183e01a7aab1a66cf8f3bfd5a 0x36777fe1bf0f3efaf1dfb8062f4cf9f717a70191065cab773ed295ce505039d8 0x3416f356a583e1e23a068b4be3a44bae5325c9ce742906b2a60298179b2ddedf 0x1 (-0x26b25163550a85b69a047cf523d3db680577d62fc9d799d46dd87ba0a85ddb5a) (-0x1e143f7bb6ac66f8a3d8d84e18b0eac85adf59e94c7e41549b92afce56d996f3);
ESub 0x72ae998b572929f5fd20ba2adfd10c7afbc9bbe9d0d93cf8cfa51130afe990f6 0x1a17d98da7bd9ac5fb755c2cf8fb2b36735a9264b9ef1043ad4d065381dc693e 0x1c5523bd3e4d13a2f17eb5a1277a59013e275831445f9a507e7cb1bb2eb3fa5d 0x2268cdba902245076a2448157c92ac7af2d1a9a3433de88dcbbaa5c9a4eac274 0x68e17012ceb02bf705d9c59e68035044a9958e2ea3a01a799b7ee2474311bc1e 0x3b4e3aa4e7970d7f1d5b2100af3ea879704b75a4781c6bc05352881fde9ae3c 0x47ae0283e342feba7233cd2b4e082120690e6a0d2d48b32be7713c66eef462ab 0x2268cdba902245076a2448157c92ac7af2d1a9a3433de88dcbbaa5c9a4eac274 0x12274d00a06c5afcd0059ce021b7abe56ea46145490cc392aa14fe167c32fc5d 0x1c31c181f95d67b25be7e3bd475dedf3fbcc5979467d511c3acc4fbe284f754c (-0x6a100915e12c0c3b2f01a56ce71dd57fe128b417c131be7ba0ffd8954ef7e739) (-0xc16f0c449fc5fe3072f9f28e00832a0707bcfe00f5b225b294c60ef78f1927);
EDbl 0x306ad5575ae1e840c8d3df2438a96bd29617e302bf0cb269412f64c0b859c3e0 0x70bc44e7a355558547bffef8b575aa3b8b9aa81ae3c89c30c6b22103079919ac 0x2fdb4d1c41eda058586a55081e0d8c4a45a186041df982b86ccec11aebb0045c 0x23008cf3a73d19d63c988ec7eb82820b5cdb106468ebd3f81f859ff89716bc0e 0x73253fd7654f797de42e39bfcd74f5c117398a604af2513fb2b6deddab66b79f 0x66bfefaa5e45feb630bbb241d6cfc7b253901aee055ee9c997e4c43012d4f728 0x551b4d32cd0388757a0291fb85d7d7fb5d7603e5f9df1dc614a081a0e2bf00e 0x1 (-0x333984169a9304e23c1184906a41aa1fa6c4973bb06198f4275a94a647b7628) (-0x6569f48e67142e8af838f3c66cb7587e4e1eb21db85ebe6d4233a9bca54965be);
EDbl 0x5e96c92c3291ac013f5b1dce022923a396d3389f6ada584d36a9d29f70da2ad3 0x6666666666666666666666666666666666666666666666666666666666666658 0x3f0d528d097a25a998f6d8a41e40cdb28dfbf8162a1ab767ad36c9fb3245f736 0x6ac5a17e8d2b51260b72cb7bfca3775df03956366d1979d80932cd1cfa6a00ea 0x2bb84ef183b12b7c727bf2d7de62a9ab623d5e2042fec2705bfc0321c82409b4 0x1250792c406cea6ee682180624bbbebae9614c7ff900a37ae2c3d51a131642b2 0x634a8d7feb5ce10f785c9a2e70eb547a8f1b6a450320afd3faecd944f0dae47e 0x0 (-0x34fa889feb29381885bc1785c0c982cc3c20271eb1501a084c844860b28607b4) (-0x22f9d8c1362755fd286328acb1e887bc4e977e8035989b8d166335b4a01cd490);
EAdd 0x0 0x1 0x461a589490cc052436d5dcd024e3cd0d141c63aaa334958296f475f07d17e386 0x51eb851eb851eb851eb851eb851eb851eb851eb851eb851eb851eb851eb851e0 0x1a76d597ddc137f76a51d6fac65c0f9b9093a44560fdd663f42207b83c8aac6b 0x67fa224cb6e20f56aa71d14455fd7aa1005e7d9d0adfe55eb0b99e8a642fca75 0x18b0a0128c8853dfef0c2c7a48721674a45e1ffb2a5c78e1802a87db3bfd6b88 0x51eb851eb851eb851eb851eb851eb851eb851eb851eb851eb851eb851eb851e0 0x2ceac105ebc25672fbb0d8b065c66a2063d3694c40ecb77856438836557a86a3 0x10efe4dc130b051939cdfa3a188cd6c9f6210cf933d5a7ee0ce2944cf38bf377 (-0x6666666666666666666666666666666666666666666666666666666666666658) (-0x2)
].
