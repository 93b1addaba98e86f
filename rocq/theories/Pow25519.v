(** * Pow25519: a power of D modulo 2^255 - 19.  Written by /verif/tools/gen_primes.py. *)
From Coq Require Import ZArith List.
From Verif Require Import PowCert.
Import ListNotations.
Open Scope Z_scope.

(** The power is p - 1. *)
Definition pow_d25519 : list pstep := [P1 0x0 0x52036cee2b6ffe738cc740797779e89800700a4d4141d8ab75eb4dca135978a3; P1 0x10d5abed4b8ce2794ccd95382db0326ec34af4e93efe3a9819062a1fae183867187656f5b3d628172c492587a2a58805c6bec221790d33e0f9422bebda784dfb 0x4b5504954240b390e31642c6cbf105e5f77fbd3ca7869a8054b69a6b2b05869c; P1 0xe3417a5e2c53056792866784fb6af0d7f5b76218fe482e2b21da358c649cb4345fc452dea7a11e50309027f94b2677b1a8f35bc17f85c20275cca66344a843e 0x3d9336f03800c568a6966b5d58e98606b26e6be627ee384c7e511d742693c7ca; P1 0x97d51710aa1d0bc0477c0b045f1e228034aee1200aa0fbabc61a2a8ac7abe490251cc7ed03aa3c784e655685c225e1588aad3590f77d8a1f03e4e17d28198a1 0x76fac33a26abd084049709cf8498834d6a17b04a9087b85bf54d4b24fc3b549f; P1 0x236e405f871c419ad54079e1be978fec2ecdcecd9b1f0d57b9af05c71c7ee1b04df905c8e68e80fd979277e4d4ece0f74e0d82d7a384b4d77e89275caec723ef 0x20fd2da2087795b3f59690f2fbaa577c4f90775a564644e4d809aa9c39e80ba0; P1 0x2b949d64b629c34a98be206079dd0f1a0b6d6f9181334a4d6560b1098500f675851943da7c1108924aaf8c8093410aee5803ef08f780e1b8a20a0ee205e39f1 0x7be7243e4a353a867fbb1f0273ab8f69da6c05df1a889f157a931fdcfea38e3; P1 0x266c6f025d927cd6c78af4472a11d19d2ac0b576b46f649ddffba4f8076db940f4c60c6219901f4cee066043f7a70ae5a73c7f970fa4c0691585d2bd7a854b 0x400e4a8d2d3546b8049355e15cd8f327dde88f4a603cc7edc36b920d4643360c; P1 0xa450232cef407d11866b7b1d6f1b56e149664fa4652edafc83a7d641dd77e2e9238bbb9b93b12020cec6c3bcdeb2ce56c58de6384418909e25ea8ed2825561c 0x152aef4a7cbebffa6e33a7f8adccd755cd0a7330b54e6ee6c848c261ac566fc4; P1 0x11f17d1185e5904cd2fbe9e0e0b1fd8ced997bcac0d1e1768545e1faecf1ea54e32d9293d602e814a27905f91f51fe183272157733e6a0fc1fe73d2ddc966ec 0xad86cb95cd16bf4ddcd2726b63916271b23495797799beeda03209d3ac597b4; P1 0x4b5d4d8419fe838d8e17feb633b1fb216ff521e63a268e44a71d873859e8fd14567d66d7170af9f162d8146c8e0ceca74be458bbdd7213de38b85665678c83 0x3d3a1d10838afe128b8057c96c3dfd28633fdc3710a1c9debfe51a4d8ec28b69; P1 0x961eeb5cf6045966d03230e04a239bfcb6844629062f8474bdedbd1f6fb16bed6aa13f6c219e8b8f0606b97294d6d9f0b55791e4cecca14af55baf8d0cafd0d 0x923bfc46589d1b8a57fe1bd0cc5bd409339755c2b4605ec7f86c00712a5fdca; P1 0x3585aa51b881a7454fecf086d9279991b986697574a981da23d9792e2f676ef6e98c28c69db8a32de5ad1704001f889ed4670fda018195b873648bd7833455 0x65e6cd6a33f9e4b9ee2a461b617f6dec61f2b5856caa663340063551df1c8afb; P1 0x19fd4a78657ad0c39859e74d8e03090caf0ee0e5f34e1ba15f84d43b34094e75b3bb8cdf081f5b927c1032e6d1e0a8daa5fc61e8255f18888f576a24a65316c7 0x6f4b64f0778bc1045f996f53487b271dd4fbb4bfcdfb7f9c9aceb59a98a56eb0; P1 0x1f006030e30290131f4a4c7cf198e813b031ce435957ced8d24a07d850e7819402df2c3c8023b2bce1e7a6e4ddead6a5b3c1f85eebafef2770ae9ba524b78709 0x36a5b4a6876604692fea042d822e4520309131e6cb08bad5eee9b7ddaddd0ab; P1 0x7796d64a5f1d0ba71291ce58a42f79d18056d0f5118ddd9b8e4dd951fd1bcedabe6926465db25328936f94d3225980e6ea55c36bc37840e5504530286921b 0x4d1e7dc5aa7e282dc484966e9c079726860b722d206aa761966dd7836408ea4c; P1 0xee2a5a541f68574ca9f50ec252bbc1bb003dc81de03d43ad510cdee2ff4358d6964763fd6f5f9fad212672aca7c30bb39bc17209f2fb1e1d609d69f8ef0f41c 0x5bc7bf0d5cd26895d2fc8b6e1fd6c8485749910e4ae81c84a59b643d2df6cbc4; P1 0x15154271dea0148b74c5e1f3a696b22a2ce89ca1cc7c1ad34a6bc9f6925bc2d23f4b8f8717766e39ae99f2adb362167b74285c03f41b50b3d1c4fe6bcde56d11 0x7825eb4c0d60072cbbd37989f22090a5c052601d5ccad22f84ec7268b014ac73; P1 0x24214bfc6b043f45877951240b00e862113d9d04372af158888e6a1c52a2cd0d437da968db9683d0e424eb1e3a22c8eebf684d41474efad6d32a0eca505cbb9e 0x71a19ae67517916350a52a125079000792935aa48ece8e187f5b3adf6fb7a155; P1 0x2051244a232eecafcc38946282e92fed422da4204f795f0f704431f5f4febb7e0f3f2f893aa7eaf1666f1b6307193575a986de44034b9f0ee8b2cf3d99c8514b 0x72ff2f40b2581f249c1c4571e266f5aaf12df7fd6b3e1b41f00f0ea18a73b6dc; P1 0x21192dc28497b65cc4e488be9e6aef8515c92896a84fa2801ff12814dacf9485542e945887a49e4e02797c6845e5f377242f46edf9c6ac0ad28e2e53e40d35b6 0x175e633c4c0e1ac9cec491cdbbeac05071969d7d1c79d5138cde801f61f34db2; P1 0x15de66501e6d071895eb0e72ae6be771eff116569f226c51cf4d377860bee5f938fd53dabce480717fa689e418d770adc543ef7c85f51a36e1ca3f4eb7cbf46 0x3691f11979b2124e7cd397f596b155a8d0927bf9e6e15464bdd80bb0e7a59bfe; P1 0x77406575b677ebd3f9b68dd07b8e0293ea1aabc2270eb875edc8777c27df5855ade9d8451b2417ae31c46058fcd9a0507878fdaf84f2526649eb298e9afec1e 0x3c8ff5f3e26cd91571b33af797d03741233d21827cace9ba12c7d9e9865b18c6; P1 0x92e1100859f8937340bdc16ab6f782d46b9895ac7dab01181fc1240820cd9ea8f9f91818e4eb66e736befdbc0b61369d9a9a89ce09d35b8cce5089029a1f76d 0xfeb6512eb6b610c2046f54de36879f8687b156fd1d3513fcdd24bb7dee31f03; P1 0xa261704445906d9be7d790c3ab53954e7b589b424ceccf31272b184329d06e8f58bd95765600eca5a4b76266167c831850663ecbec4cb04baeb8f16dcb5610 0x724fc1ec95562f4ab7c11334462f1daaaf2904c670e613d74c07773ccefc0eeb; P1 0x20b47f336288f58270161c74700eaff5cd6f50551905508a79cb4916a9038dc855ee1427568df56ddb23a045bf226806f1b70412035b14b6badb810ba46405eb 0x463e9342444a2b85532a85ca793d528b96a07627ecf9f5eb791a4be681e71f3c; P1 0xc598a10983b134c237f4652b124443258a0fc987a5624e4057c26160685f2ff50952a75e68cb731c70c2ec03ae361e94229d87d07b00c0bef3c50a52b45dc79 0x32fdcbb893edfcba6f2dee88b207e99ee2e687e8f873f1e41c49dfb77d1b692b; P1 0x681f9907d4fc9b57ef08ba68b6969cdafd1879510a0ffebab6edca3b41fdb669b187c9cd2fb577cf5dd2a803c1dbb073ec07c9d27194624875fd7137d58591a 0x324bb9aaa7825dd685080df1bbacbc6baf0edd973f165569fa2b0da88a558039; P1 0x654d5329cefa4611dfe11c6e107497530e5e98d7327e9b98445fa8b90988f10f1b14b88423cc755a00262cfeaa6cf98a1ef137f94fb03bd76301ca20614e971 0x71f7ef0b4f384c6593ee7f154b778ee352f128ce5c8623ca843e89b5c82a6016; P1 0x20825197b217e00a141be6c88d2695924c291b4570628525abf31dfff808e560afee070055916095e3038c80bdca54f47edb89bc42429d355951b060a05c080a 0x728d1291b58a223e6ccae138ac82bf045b70d87a7806665002a18e4427262cea; P1 0x20d79e60543f465b7cc3390b2852986dc3912c7c819519771cf4d11fe6976159cb26d3893f41fbaf8e86b59cac1130bce43f482fc88ddcc53b17d4f5f0c72978 0x28ec1b037bfdf72d9028d08543d838f49ecc8c4b0c2cef251e54793fc3a67414; P1 0x430fcb98eadeeab1606d8d51b9f8138d0a6314bce41dd0d0e1e7ff2ee5eb13581b7622098bd1427f0a06f266edfd5d08c1f190b25ee5ee8eb1dc13b8a4e04ca 0x46b24c8a216cfd9b38d419a509ae675a4f0611a37dc89e0cb75e3868dda139ae; P1 0xc825c7fc9669999f45a7e1734cc63b2b725dd8a4fee9b92595c9e0af32566d87b9685ef834266907f26ba3eb1a5bcc754726da8463d9545f985432bc3405745 0x286f28b52d9f8eb6f80fd53fa4dc3b5d78d9e08f28b46be20f7f77431f629b6b; P1 0x4178b92f2ed48e178780ddd081076a9be304bf79b9e030e3a0da6923bfb2778cbf948e25a17b0d4dca43b9dd35fb0d84c04a8019c63b162bc3749828a4f30c2 0x27c40c27cb7162fd24d0d0974e9c1cad1beb0cc73590a56ccd5cb70b35a3c631; P1 0x3f532bf37d85070c85271bd9d01bb89c1172af989f914d30b07463f6ad04daafbdb5d1aea285c754edc5bf47c796eeaf3e6a4c3a8f7ace32cffd6a7dc8605b2 0x4759044afa64d5fb44759f4f0c89514b087512680633c0fdcc89b5b972d7c0f9; P1 0xcbda1cde991927e40f741d74d1d2f5611fec48b8aaa1c99419bf27d998d0b587946f6ada61842b748edd9f3b36b30f882547d00a51544e68812f4028d81de83 0xbc5d44d82b3b7b459b76902e4c3f3948acbd56ba62fa5875f646257a41830ec; P1 0x58cdcd7591568e099c06d51fb760a3ee8321b5eecbc9ccaeda3c551f3f1d39801b6d58d6cbf7880b8e938365754642637b0903c77467de92d237f9aa4c9713 0x29b28cfdd3e26621b360bd239c878b0a695a714068aa0a2e1aab0519995ebd19; P1 0x45a05cd8a62cdfb529b2683b4b8090986f10ac80aa459ff065ff6a986e09054d2f865d41203e7b96e9d60a1ed2d99de54ecf88f295a2f33e14ff57ff8374229 0x6baa277bb571464f845a82543d835566d63ddd8c02dcf41001cce80913896cfe; P1 0x1d0321bf63b121c53f0590dfad532903467e3dd09fadfd8fece841ea83f4661bbe3fd1372d2239a1890a387eb5be951cf1db398be16c91a2f24f8bed4202ed95 0xc0694aa55b9b39d96d3faea3814bb7822cbf03b94d230c7d6ed39c23416e89b; P1 0x5ca9284033e6620b7c6a69bf34270a0680506124e5d6330820a0160c53b6e76bd2a5f1cd4692df6c5b149db50fe1c718fd4352f62092f3bb46e1abc211efe4 0x7cf07f89a7c9dce6f8691cd3301e51508821343bb65dd0defe80c7e25f8c1717; P1 0x2711b3a361a58a9dade5813a851921c1bd547105159131eed475da6ae401ef23c77a61885d087ae54987d1e821bc648b6480c19bf5cdfb26d5ab59b40fd88aa8 0x96c13d598748a037afa4fe66494b31782b59558ff0b6c80a36b7518e8d1394b; P1 0x38e1dfe7d5e7eb4a8ab1f6615431b7ac22c19749d80007035c5bff2e2f5d19b295e5dc8a3026909f4c5d92de93523ac0b5bff6f82601570071166c5ce818b5 0xfbdb9a624f37dec459e094279cc201388e3fab681a948e4f0586a0edd0e7cfa; P1 0x9ec2fd37b0748a999806046125c6ac4ce2973c2660d2f390dba8712f74ece81fb9db588ad4e124194ac1572f012a71ff5719b39cfa809f881d2093c731defb 0x6fae4b7d27a31469753de472ed8ecd637213d5040b84acb11953ab551c306f8d; P1 0x1f3791cf5f3be66d6002c17feba84cb71e6c1db03ba817b86fdb5311a34d920da4674f8357a34e5db8807c707e51ab1911c201ecf1911238f74c77e267018126 0xd358e5921a5d0f105a1e5ec69e15e3e44f3ffc33628118109b27b4878c3d26d; P1 0x6fcbe3d899d239b9bc1d6c93f9d9745c28c99a4624e1e65cbbbd7fc175ac61b8979a79ffaec2ee6e9c0b8f77c3cc1e76d7c785ed1633b349de3d43b07acc3c 0x5801314ed27f3d847bbe836e0f799f1f38709cac6da37883ba92033cc3efe94f; P1 0x136255bc47cbb2f97ddc57c6e920e8d598f1a3487bfee496d814da60f7ce56e7080800465dc39f3c3f9df7541a1187ebb499dc35f8dfb43189f772c048cceb31 0x70fb656ed94914cac3feb28f65723f0666b6f175a4ff833d7e6605e094249c66; P1 0x1ff2df1ffc73866423acdfaae7a6a9ef15e75f75edaf3d42a22b80109d90634543707ddacb67de78ab1aa5553f0ff8f863172c09800da55c533be74ccc6c1414 0x75df98d6e3a76d798a6a16103fa7d7dfdeffcf088d623cd4f81db6f82c172de8; P1 0x22c6638912d9cbd616927a287a2460cdfed4522eed1b56cf413efc27796aafb2a5496a74ed4b92c1dbc046e428494af85bae5fb4ea5788f3204977ba89528f2a 0x110f94885697aa4508e98ebafaaec0938e5bc63d67811f00a167dcf67a4e2ede; P1 0xba7fc0e0d8353e6bdc95c9e66d9ad617eab8ea36da6230c2958c7f56773d7df40e531ce0ac89137b6f00444235cb190aa66592eb0f9d3a2ca14c3e3fea4add 0x1a27eb874ca2131cfa908a010371fc395a059d8d6d3a5a1a3598cb3dd9b05a73; P1 0x1b65821f527e27f9481250c320b55742b65cccc4cf38abfcf316df199670489e31013bd40051a0bfd37984fe97dfae1d821f5cac229748be50b8ae29783e9a5 0x106a39df6412a453d3e2518af35fc0f2457a1ebef6411a364018acde044b87da; P1 0xaca51532410bd73688da2b41a87e018df13c04763f5b7640c9029ab58ca2d08b5957d234cb5211dc40cdd2071c398127962a4cc01d52c9059053e5bde83e08 0x7c0dce84e02716f9b12f09da3f99c49976740b80b881d1d2cdf50a5e49a7f204; P1 0x26846dddbebdb6c5fc0331d8c9b4ec7ef7b9556506cf553a1950751add1873ff465bd03db36c91b9d203dc49cb626d4873f59c3587c4d4d1c56f5f383b1f9a73 0x71f8e24c062e45cd12131c336117fd245559b4a2904407738997e22ce0b4b0b9; P1 0x2082dc5e5c708d8603b35363df36ac0efa52c4db054f1a8de46d91a1d855d3f414f31064e799d37f278a1695f75eb5fc9977915adb6273a80e6840117c57ac5a 0x4b09f959dfc2d7afd6e80d69ec19e67087921ce86082b3c3f83afbcf867a0261; P1 0xe17d961d6328eb2476f1f9601d272392872d3ee5adc83119c94e327208fefd3db51d37d33e11649ef063aa83938a452b5931a13fa47782ad43dff8c2ece42f6 0x4bcb3dbe9aa64b3e635863e0be4acb26de802dc38b9d47a22bbdc3e43bf8e325; P1 0xe60cf50b6082727c37d0f1b56744d18bcda568e269248f53bb9d666c03942344d2225fbed977519657916ef0ec61c395fbd19fa38d362a0a992382b1a5b69c8 0x353fe1d5214723d56602c3a0c0f1bfdc7e3b20c08ae9f407e407364428a19383; P1 0x718cc17f10e5f6f07def6aa7f433d019ede9854166e8bda496623f0c47928fd50e003d53140f4ef698f2aaeac903d062535740758e117868c7e764b84169f07 0x6a6b90c7cf07bc8f2df3cf1ceecda463174473c83667ba5b8708e3aa608d4a40; P1 0x1c586cc8c7dd8105a0f44662ee0c47490d381fc42c2c56c0740ea1df06a565081b821f2194dc4810267b72e291fcba4a0c1c43e0cc9865380203a4dfc231256f 0x2f6f0fdea3432a978c4a9e626d8446d92c0e5e802e003a6c69bd57c2deeaf73d; P1 0x5a19f183065f47dbfcf70fe5b4582bf9d2585e2f49eae7852434e417521e6f5f4a3a6867c3c5f524c63fb3705567431d6172a74322552bf96ec489d2185e67b 0x4388c1116351d6b8531078ffd9a11d1b9a98796a54afc777c308123d194c765c; P1 0xb6a48590a812546b8a76b08857fc193a65b21b24abcb92a50a624e5bc7671c85e83e5bda05cbda83c3a96a95fcb396f321104320426435f401c02a08182c25f 0x3911b2e6a0ae45ebcc4abda848b8361c53e755001e6f4aed34912e8a03e56a3d; P1 0x826c88304acc3f4e0c4ff6b76bc2fcb524fd0ba93abcf7a6d831c4b72b71d988303e22e8a7f5791070133487016f19fb5d3c4f448688eb3f91a4780ab4b5071 0xe4eba4a93b98750c9c7f6e5464963acf20c23dd31b794a4acd2c0695ced7d9e; P1 0x83292aaad8a0a5a89c9026572919cc4e4db28b0b54a3608cbc93abdde7f80c1474072644283030a2e87b6b34e513eeec3a5d273d249df94abfe1b4d6966157 0x41df389abb446a1073168e6c2d642593992840effc51ee3da6c9e5432fbe9481; P1 0xadc32f24a159b129b0385b42e2731dc85bf16f36dc88f6c4f17c72eae298dda1641ea62f9a94a2392d00ef32b67c9538436fa8e419eb1c52c31e39f08449f84 0x5ea41027b4c38cbd62bd1da23bf9fa634fa8f26061145972488ee9d48a6f2a6f; P1 0x166af2690ab74fb88507afc29df1b63f76c39b7ed92b342b1514bd914e5c553c7d732be497112172d4fb918ec8399514698bb99d21d67fb1da172d6afef38d54 0x1e57e449d7e78d8a609a352e669ced59078d467c53900eefb80d2634ac3d5e3f; P1 0x24dee4f7e0b3f489c7811bc2dc6919eaa7662befe2b6cc43cf82eb48bab5230729ac4e7fb42aad71e2cbeca7df5c514952cf7e73670501f3f047546a36215fe 0x5b5f327604a5ffd401c38206985b2a4e28281c9a5a76975e8020c8f33a244fd; P1 0x14e5557eff7a53d5c91726b59140b99a3b352123942c14070730aace2c168e273408834f4402c83550995005d944614ed6fefa46127672d6ea50db7aed9a43 0x234704ee937a69e2eccb7fb712d3eba248bee6d9ecc829fcef87018473716b4; P1 0x31d62b2607f5ca162e1e75ed25c8519a8d9ddab02b2fa940721efb7f8b37b14cdded36ade6addbc664f66ca5c9c7ac1b27badcd9195d5abfb8349bf123c38 0x6473a5fb53c15b4b619e0124c18743b4168cf456ce91c3a9bfb6852315755dd8; P1 0x194150f50d5b883cdacb173557d571c9246b57ca270a447436b66be7e35d83ed3c2af714b38c6bd33fd178a6ad2193aa12a54d03bbea6d78806b35e7baf0e0f9 0x392aba5a8ad1a552870eb6bd8e83e5f558827d551d58365171d17e4b3dba8d3b; P1 0x82df080b8f66d11a213948844cfcb1e310158dd8a229c084187d765264063e11d0a8752d209ebafa9a2fef351e2ea3970dbf6c94bce3d29011fb3583a50d879 0xfcc6c3f97fcf58e8a0d78592cb290b802256388c0a82edca39d8ff055a2b66; P1 0x9fec014114d6560356df5bc5f7ba14a484872b4696db47f4ca3f524c912567d4a877e2684d6187689b44522ff85afd517ed399ea52289bb0a9f95f3e571a 0x70872ad15af5d27774565a6748f10d58aaa55d1f168bd3744f806a5a1eef835a; P1 0x1fb145180e4275848e3f8ed299d7b5023fbe81ae85ef018c71a05cda749c81b7bf9e35446e5967d0daefab442bb66fac02e4ca6a529a9a3d69e9c14b6774a03d 0x6ae58e94190073e6555160c0c6c7089922872552bc593ffb3eb9fcd1e8b9bdf3; P1 0x1c998e60830ce390e040036bdcecf0adfe989e3f28f206b204268ddcbfbf455b30cfe47ed5c8649c8c3b562e6bad3d92fb291884599021d74a8827eebaf0ea3c 0x6977d8f3612f8a0793504ddfdbaeaba49690b721574486b867e767dcc8f6a20f; P1 0x1bd72cdbbaf9490160db41b832450bf3b38a7db069d5da7462b2f04dc22b4c43a3f0c779cfb44e0be01328fcf839ccece37916ca66bd7caf291eeb00d2aa4e83 0x313fc431287862faa340190e6e192808c4bd991f55ef092b093970cb6b854efc; P1 0x612126b03fe9056ce7120dad4a1a0d5bf5badc2fff839742ef4b7fb225d22efe3543f183f48222febd28b02da4737b416fd8ae6e5f9ac87dd27c6e4c5180df6 0x10f19e78d8c717e75cc4d992d2ed8401d064fbc19ea1f36908f546a386d92b72; P1 0xb7f2f716db0d892641b6933edffb4e169a878aa9897cd7a53049007f205704471ae5f723154591aef2290d29032a6290136d0a91c20c93ce3c5fc916f646b0 0x331f1003d67eeb0c608a73d729de670cc794ba824081a91ff61fbedb2ff0d5dc; P1 0x68a7a18ffa8aa7aa763a55256f868edc97dcd8c3385b2105c77242f5df5274403c1009dc95ee10ae7a703023ec79d02e79e2969e71a23ccca41e54d003e2760 0x7f55f03bc6acbffab08c57f8cd1be08c6e97b631e624bd846c2293a6d1691550; P1 0x28950832c965eb28fa16033dbfd26dee0f868fecdca10885b51cf4fe47f4a61e7d2ad7e3ed90be65d1c285ce115c28b94ace1ec0d2c9454852c7a0cb66c48202 0x6f57348691794c5cab0077e9b3aaf8bc870888707bf4e445773de6251463f126; P1 0x1f06f50035d75a9df788e68a68bf90c71293aa9eee5cfee34bfc07f4e4fe3757aa6b3a75cca3614faf1c007cd0be358bc34137757f0a03c4a35a1a8c00c4b13c 0x1951144d76567287a5c66f2118c52ab426fc882d41aeb490aa6fc80cdc62c2e0; P1 0x19aaaacc1ede528137345847cc7e24c27a70b29016ec2abc8d1686d4be225c573930bfe80c76da0f11197ec81561f589c30cfc9cac7f6af63b791c73ebd1aa4 0x1913694b9bff1a0d93bafb12d6384b111112466ef4b79a87738bd38fea9c462c; P1 0x192e38a07464bbdba4b616c7bcfefb844a0f87f25b021fb305ad29568b86f2c48500ea920bbb25fe85328190fee112a38d824f4199ea2bed8095be9b53117f9 0x61b3b62b21eee813ad7b67ada88b7fb9ce445ece283088f10d7d74ab22e3482b; P1 0x17e4330f8cb27179b14377b417361ce4f2e1d6ac29941a5a2de79fd9c4d948dec10065c528d06fca9323833704683899c8a0c589d28e5717cdaff28b393f4d4d 0x28d765c7d477f1fd3ca99e223b272e265eb7975e55f70ee5e31ea5af4d979e02; P1 0x42cbfde66c4109acba6fcd790db9030d5ae8fe405e9cfe3189de5ef38dc0840ec3e321786bb52954cd67297bc3194241c02f018b493c761e93e443c9cdd4716 0x1e2a3163662cb7ffc008f270e1c50115bf0161e4b8816aa40f2ba83a3344912e; P1 0x2470298ae9b54465fc2569260537bae39e3b9952e4bc7bb36970d9874fb7ec8aa550c210c2d7f6f059548bd6065adcb064518f4644e100bb20705d84083ed6d 0x625c39f6c40e7356ffb97ab86506b1ce3ca5d07e9002c0b5f82d81e169f49663; P1 0x1836e460e4d74d357c5c2a7cf803678661a21a36edf20f9bd2cbd514d630fb08eaef64179c429ed99e8c8e14a0e617407a64fdcdcbfd024e05a191fab1a944f5 0x5b85b4fdb784d1de8762bd968560db5a24bda9a14ee37e19cf39a2427d0e42aa; P1 0x14f6f64da1fa7b09c12b36f719b716dd2aaac218df78818c40a00e8376cb326e836b30d89fb78da0118b9959bf1e86b0394f0a53cd5732388af4874250a40c6b 0x183037d56a368e133d06e842062daf5ce8feea4137678db26740d9881387a51d; P1 0x176e02eb288063966292de95a00402ee8e1df4d31d07a826af7f04669ac819e06513064237e43f561e24ec895d4dcd8e5c8ca79ebbd2fec65b25baa23d6a4a4 0x14f00706dfc1746dc33a5736ace9f0f4bff499ce6e65f792622676379dc5eda7; P1 0x118e29be0702de0b47059d758e6bbf2bc4b374b264b6d6c8d941307ad6162ba83c67625449b079004f2e49de65878e18c1031a68e58f316e28183295cfbd289 0x96a10ff1ea08cd82f966c9606c133087718366a63ded7fd2dae5ed883ae579e; P1 0x38c99a46a2dd878c3cab5507104aac1945917e8c003d26e0f8ef21b91dbbc9c20756dd48baed65c6c23b5a7604d4e0cf63eaa19a7d40b9df2dcaf652174e06 0x5bb9c8bd1153b3c2bb324892b5c37aecd0a6b8ccdba5a6c8769081e68c7e6d7e; P1 0x150ed8ce49efb5624370b0b952a2289bb14e5468ce397ea5fc227bb8c431e38c0597665799433c6f13156c4d2a2c6d64d670a606eeb12faae13fa12cd1912a59 0x516c77759305013a6b3880438f36ceefffe58d63e044a47237b6c986d447e527; P1 0x1097ebab9a2091ac389508e0a8495883f24ce6b986a45f376b8f90f731a753de86c495e110ed1d21c27831bd954442e163d81e2784c17322709a8e2e4cc3c2f2 0x389538fc3fce2cc0add496f4768e2cacb3c2db6d8f290b937c8fd536d6ab4a69; P1 0x80360202189d1849428a4bf642385762e82024dc6f70ed90e13bbca7dfbdc43168392cf7e3ab5771a51d644e3748009145b9fc4f439425d7956c8e1af8559c4 0x73e6b508df52136e75668a5444051523f42eecbe23c5bf35f988c7965d5ea95f; P1 0x219ef9f26f4f78a29d52cc1fc72fdfd847a3cba71388f4d86432df3f63786f08516626cc1f597842d7341571702946252eae619d432bde34d548456f0c78803d 0x10c823ca115c509a5a60d50c6dc0498508585d6bdfe0461aa019ac415eb378ea; P1 0xb472a3f615dc19e10ecac9a6986b337ff17c5b4287b2ffdc6ccb000152e7079f0f14ce66226c9ab59bb409f14ec9e91d517e972b42b560edf6eca85ebebe23 0x7f53582b48cfa485a0b83b98dc35c602b6fe0a6d7a2325110c2f0baab9d94cc5; P1 0x289360f01080f246a56fc7f8427a9b8bd98c7900170808c3f95feaf84d92a27de1f31ebdcb544b7cf7091dc6574648c275ac4ced533ef3773026ace479f34923 0x3deee3736ca1e4a9499dc708af738ed76ff69a1b2dbf40be2d0fc99664479404; P1 0x999a8164494715f59a14bc97c2eb8dde787753c11c17a4454eb6c0ac76f1d02f52a278f5745befa7039c870fdf28ba065cd5e101229c84462e53e8b52e7d8fa 0x4afefb418912b4dd7e0b5337dcf360d13f8127215ba75c09a0606d81771684be; P1 0xe13b8a5af7401300a487f41f91adfa0731a2e473e1b402842af17dab0a06e6174b79aca09814357ff0fd9713d89b4e8fc2a33849c79490ed30443d3aee7621d 0xa1c6544a2e9b674a3c5c5e34cf97a01484dad972e6e3072bc7e14d2326dc1b3; P1 0x4180926c7b2ae70b96a5e2dbbfddfb45257cc04c40bd6623370f3996a8478bc8b9f3b93238b7af58c0ac19c8dc040adff68a5a1c04381afe5590d927df86c3 0xd03a94402c48f8089dce478a27185674f421768937965f658aa2ed631a95b94; P1 0x6c858c4a16fec563c7782abcb5b6cf7463b5cca5540de711e46e65ebb8458da068714fab9899b4be17283e3850565436a4514abfa5cc49e546c1b6b456176d 0x2c98e4ea1a485724f34046da06dca2f77ad3b194fb1857f7a5339809ace75fc7; P1 0x4fa5b22cc00bbbca31e2ad9e79fc356a5484378ca9a766aec7abd967200efe93f1028d0f1337a5d87ac4760d74d63b312d61f11d6b5940567cb5d7bdfc8802f 0x75bf078c97bf5c591af62742d8770588b29d439755d28037f90c4fe79dd35030; P1 0x22b32edd35b94286d1e254ee77280647eaa5b49a2b3ca6e29493dad38e5b475dd8a51b1c9ac038b4b64d9155c025f5535aa6c5f8a2db1531b37f191d7aac87b1 0x2ac6dd818fac629183f98273b6105aef4107d805240a43fb3183639aef85cd23; P1 0x494715f38d6f9a8feaf9c4e332a1bd5bf4cfe1ccad655e03111edabee39a70734410aaf7c05b355a6fcb5eddcb18fb80a0da7b98f4792a5aaefe0d5b08a378b 0x6f1953bce33eb0ccc7ba3699180b14fb2c95b4f6e31223fb79c54a0f839a4d4c; P1 0x1ee481e9f6a6b144e4e445e93382f251a61f9bfb5bc30345900b4adb7b5cecee3d002acfb1c300fd628ed101e49c932c53390146394ca94c5d95bb1395550697 0x378de976c50b033efc97bfa6c20f97baff498e357d4652553caae50d9ec882e5; P1 0x7b97959a8cf59a113f9c70ab2b9f286f2dcd48b67a5322ef4611608e630ff4c0499795c8da06a23318430312dda78411f4a98b0d6895efe3907a351b6e2ab70 0x1624fdec5019bd7f84255ed584ece449a18135646e3eaf6487e3e297733e1b7b; P1 0x13a3341aed5a257cfdfd4211f451c4534c04e9a35104407eda47b8cbe561b99cb44eea6e4e965380255f542f1fba691303f12e692e6ec8bad49a3d02be3c0fc 0x202eb95e33f5c2a28c9b782a15ac20591bf1fcd7af609b6590db5c1c79cdc19f; P1 0x2979cde5c1ab15453540073eef8c9d3cfd4694b5360c35472733893a51d72e0a1223847bc94453c2b3da41f6ba60501100cf717241d3b8bd223486ff27ea145 0x68b82929f8918ee2cd1714f8a83cbb660d5e9d40afce2693c29a2c6026934b02; P1 0x1b7255c54d8de8140d795f6a460ebfa2649138cb5f3e09cc92c0c328aeaf5f8593957101b5bd701f06e9ab3a5d68bafc49ae1d26992835658afe6f4e583cd81b 0xd298b5f84b9c752706bf3750d06ef1f14eb2f4fd0ce04b0a2e2a021ed37f08d; P1 0x6f00ee05d7d0742f5d943d17a0696c4ac14ae4219fbc5c6b376bda28015320040fe84aeed2500c4b18ab514b60b50631dbc76bba4ecbc0f276523aec3aff20 0x14ee74187e4e53388f930ee97f1e5263844956bdbfcc126f1db951ad2991b9fb; P1 0x118b8628b39f6e13b2c5eb079e09c260ea5f7aad05e2837d5ee8f0b91717a3be63a508555e1b2d53f0e6c515eaad3ab678609924d40ccdfc947124190fcd77b 0x507cec16687abed3fa7c9a713015758e9b50d70a27cd3c87e6a1f97dc4ae7a0c; P1 0x1036d8f355f083e59936702f227a2cf30eea9152b01a38f8fbda78de9347b03503d41551c3ccd2ac8d9e683dd6064885452df1f298a74a7d063c90f0efbc4c87 0x70bc8396bf1f4e9014ddc39397e23d546e80c891907e3e363b043b570f1d9b5; P1 0x1fcf58d23284e927f87fe29c88d3c5c26c6fa6386845a0dd4865c65575d0eefcdc3024af16fc347a7645f12a636ac79e7e4262f2403f4d2ebb648e252ae6f4 0x360951397f7aceb95a0b896d6580e5132c22862b241b1b9060adc8cd33b025a7; P1 0x74ee2ffd9594feeb412442f84b5f83cba0d9e2fe319397c4594738112e219cc1906fe5fb213951d0d6187eadce623c9486137eb36e99762c5203f1569c2edcc 0xd25762e19ef67b8e313f977df9facc93ff0fe60a0d04e34411f24e7b7ae8d97; P1 0x6ebc1b8239ac9ee405dd6c95c28078130a1ebca4bb7573d205fac4e9ea8c2acf88a994c8632b23de49b1fe6499783fa46ae017e092f1486281ee54342de060 0x2524366773df9cfcdc38527a1ed37c6aaea156ec9d9f4c21696b0f45326916f3; P1 0x373e0e6125817a993a5a26195500c7d3eb8c25bdcdd04ae1322dd4d74a6f31a119729cbc9fd4171ecfa805358995c5c3cacb3e569392c21590f701ef40bfc5b 0x5469fccf70560dfbae5e2885b1094e7d363105e3dcfaaa3de80202ba4fbc9c5c; P1 0x11d5a9b78ec007c6887cb8b0ec462e4fa1c25b2ce10f6aa3b785d0f4eb24dfd1ec184c67acd46364170e70f9c3f59dbecc06eba7c0b41f4ec3fdfdb45466e2c4 0x1e5a5e065df3e68df55ef651442c6d695203cdec7ad700aafa2c6a1dc0bbc1bc; P1 0x24e4e9574bf558144a8b950e71432504351fb6a4f456dac58dbb316590aef340ac09ea5828c6c0dd4a5676d9ea2760c7db5e43bca737c5c228b663c6d8edc27 0x1236ab3cce5c811f380a5425c36b59ded0959a6546e0b2ba6dad0cde3f122715; P1 0xd48d28816afc0c2580eb47488c4527d77ff055ff06563ee9da685756a7817202733b2af22affa70cc70006c044a434dccc94f37a5a950235705d820f1722c7 0x25dfeab5106d1c93970b009e2e297b5cad977acfbb78db5d85a60ac7a58a5790; P1 0x3971eea731cb1d8138d390918479720c85d3182eae054afd9089539bd08d09ccd2ed8ff9e7ed19664a290837845d46ddaed48f652783b22924baabde976ef10 0xbaf67edb1c04a6d73003bc767a78b7488e78b1a4c3a6b6f71fc08d50b63f130; P1 0x577cc679e4520fae95f516049d951e64468f9cef1593aa3ad34638103c3433f0cefcaf7f54ac62c0d362eebedb38fd82b22ee7e4548f8d02194ad7d7ad4420 0x6283df7318fb54537acb82fa7fc2f162e1f0ced7fde3ce8e01140b470047e960; P1 0x184a6d885be23e66c0c17bb09cbd60fe8a3b7fd0645c08a9f5bd209b851fb6a797ac8a79b1111fba73187a13eb76899eb17a6e530baf91f4303466e5e66cd73d 0x4de2a497de5788d1eac20afc2311e6b717a773704bd857b1a03d991928e22587; P1 0xf2ebea0468d7a9376deb23c11d7e383c91dc309dc5b41abb33c8dbbf31d1ad5cec68e5f484d7ef2c4f21f448422c2358f948020f5690b71ef1e7131d2ad02ea 0x12310707ee3d4ec72a80c18a523679180018e6a78486ee43068b7683b1545591; P1 0xd409913b9a069dd377f487020a1454e191eb1c27bfb4cc92959b041aad151df7170cee9106fce0b13a29c6407a561b32b0ab9cb3e7373cd89e55656053ceac 0x2b12234051252a1b0a1c8278b153eae44e79fcaaac0ae21a00472b268c2737c7; P1 0x4a49dbe2f4d38751636fd7885fd5db5802643e72ca50d0766257f2924b5baa6c973ee39a3f342cb595419bf097897f49177f982dc59fe6989515a2e373ae45a 0x5cde52caf822b58c919a671dffee664d8b775da7cbd85333b2334e0951682f61; P1 0x159600dec560362002c04a3a942c08c1072e5c0f32d8815549c9f414cb7af06197ba23abbc7cefb50a480544e751c07ecb3d13303ba0f6908c52e0cbf00d9fff 0x19e1ab974e4ef11e14bb1752febb134b0e06a9739457cf4f1d6259244e1e58d0; P1 0x1ad31de9c132a662c2bde7e2b0b0dc2dc6f155b9e88b40a2b6969b11f7f5620f274333d45d1677e3d173520a8f32da2ad8a20d43cea93dd62503216866031a0 0x6a10ecf7278a4c52f4ce152b216d5e8d3a016ff566745135e2f3d5e8d9d449e0; P1 0x1c2838807e8d08b495ccae2c374406003ff67133a523d31f5301e0949794d4b5bed5075196605f492e50a83390aa9558ad8ac04de9250d64ec6e2e31e934c233 0x7f381435f217ed1536c14395f1eb0f0216f7acb6865e9989567c04742cb175c9; P1 0x28820218eec8c6a24c5d848a6b33767663af08ccfd9beb0d6e30ca4ba0ca4443d83f225aa11fb95af0b0bdaedfacdf7f3aed4a53249e57c5861597202dbc6b7d 0x48b6c5c9239a185f13c201392924c8c883838e712cceadf162ebe574614fdc5a; P1 0xd3bbddddbb14f240b620b179a530ba82d39778a2b01df0764a3140f40bc3ca8187c0f63e2cad0d41a88b9f44f76cdb4de3eb09ffe22b764a66e24062183e1ef 0x1ca7d5b6a0740bd931a55ecf2cc94c5097796de6c1ea6400db5f327e2008da29; P1 0x20e218a19a745a03f8a43b436d50aefc43232874dba9027fd83f7e1c49ac980886644f9089266d5283000b097be9c862b263be789b7e1362bdb7a06c2c603cc 0x7bcf37b18b4e4e105a1bbca78c3483cef9f0529a325dfdd7bd6b2f58f4256a77; P1 0x265d99de907555453794224c95f1c1f069d36440cfe8eb8ee01d0ba3e45157b1142f10863e76248684f8c2c2136055f1d19f77e41a2c087206be0f20cdc3d65b 0xb42ab4b0303b415b7db1a78c48c4b8a947ccc4a2ab2f8d0e20acb5837403d54; P1 0x513e22483622eded917b9796050e9291fc1860aa4dffb201e131d21fe5588118dc9368c3f9c101402e6c123a3bb4e4da190fcfd3e481bc18546f8703247b0c 0x1e33ff5d45567bc05d9d55d823c69327eff2ff894421b213e1eac3de323a4694; P1 0x2487dd557e47f2932e5228c2412e512618a4046c91a033c6878aa2d3ae3c72d2dca64a4d4ddfe61a7f222ab52865b8d9e77905370892d4509bb2c1edcb0fee7 0x650062e642d613ddc8696b665325b07c884bb510e941473c722582f467a9b5d5; P1 0x198846ffa1595b052ca20947e12b92981b918d41410c0c96e9b34e9db7f238aab715de9dda7faf1d2a5acbe219abc1b65757b8de79efe5c9ee9cc5936896dc61 0x54644e65b289124f4e2823a4a4ab6698f553a105bcc0160923569d41d336c07e; P1 0x11d3433bdd27e45cf7af2f7de5a05599e77d5e5357a5609c3fb6789c92d1907f301fd58687142adda69878a6bf783be2765ffdb3c2900ab64d5db4af68a81ca8 0x66151ea5864e25b6f22a0e42ec9505079b737894ce48db9c462d0d8db1e67d04; P1 0x1a14f01436acfc47b281976c74d1ee2a765d39fdd3e2ed71020d547cebbdcc2090b72da4f61992a9a1c8dd0edb43842aa4d68baad14061197fcbb38511286c2e 0x3579af6e45ca0de040920225fab27ff5e927dedc65ba30ae9ef106e90f1f499a; P1 0x7283cc6064199f76c11cd91b0b3533885be47929661545ed219144e6173a91fa7a05131510edca57b546a94a85816819c4618c22344117b11a6f6e56890419a 0x1d36815295c840a8133e92d322cacda4c359f3072c1dbc0bf263190d6d23b6da; P1 0x222cb7af062f15ff6e22489f9a894b06f4f62f7996a70ebea2dd99795fc57a36caf20ddefb6596288baa949eb5fd3f4c7e887d7e1be442539d3681a80618658 0x76c54a4f5e7f3e6d6339a788b81ebea03406aaddeac6eef7f4943f336d58f3f4; P1 0x234e6ebdc6af2dc95a4882ce40bb81bb092affd1576f72625545bc8c6625b6ad4df8071414f5d3048e41f75c505025a81446e4d4e6a87d6d6d61111d8600c46c 0x1dd929b26e377ba24640ca84a9f26df6bac475c3a067974e4814a98f17c1cfb4; P1 0x23ad6d0b5cb41439113b186bebef28e091cfe06e55d0eff10124e53a68a3d9a085c09c482071d2f8864332db9d3a1e0e901ef483ff61842c6de2ed35e2ac501 0x6a7809bf3ee79d709145f6095399d9503be7cda2cf500f24a7d68df02973fcc3; P1 0x1c5f1217360f6a86609f8aa4fc1d8515e37bce3fe877e5d768dc4482bb67817f89f80c3f176277b1635f1ffe1ee8627274e06221c04041e2fb02c477175ab8c0 0x5b65f57f30b428af7ebdce5c8f8c1560590c12e3c8c09ecaf9edb9962a92397b; P1 0x14e86d5a130c1275c3381d344e48c5b1046511cab67728617a48a778458c47fbd06a1b67df578dd8e71be337cfca0c0e9fd23de31ca399c5cdc078f772237a1b 0x5ddaef5c1ca8fc09573d22bd3ed4cde94871dcc431a30cee1154e5ec1f37aec; P1 0x160c0f2941c99255c597430889ab1d51deec9d65b2946189bc0c0480925dff16ded2980169efa65044f375800ddfcb3ba7f7bbfd737d69647e66dbd98d51d2 0x630aebd9cc570155ef1f517a5b841912586a478722e7d291146bfcf514cfe946; P1 0x188d341d520c3cfa8c6a64bd4f1dd8d0ea64efaabbbfb77b4a05a793f2bb1d44a9a686273bda6f4633a767a08b59c79489f88ce5b577eacc5957732c915556ff 0x4153125d54312990b3f53bff2c19f97ca362b48a449dd969f83cf75b2a8f48d9; P1 0xaae2dc99addb6b75946f89c5c1cd47b3336da1b9758b8df9b34ec14acc8c87fc0b812200043e21f4f02e7071272abd8b02897ad0a5af7810d05e424aa3a50da 0x3f3763d03a52a1bacfb91bc9c00e05bba94cadea98aecb2a1c5ce10c20cd46a1; P1 0xa008da10fe629872473aefbb9bc1e0c876b0d447a1692caf163e337ec4c90b266d95f04a6744d8f52615fb407d02f3d652ba213743f57560b983c52a7d0907a 0x2d27cb225d756282667dc415888c41aecf9cc8119c1ad13218fdf99856344d71; P1 0x51a74dfb99df55f7e195a430fdb64ed12f503f8463303a6a03d2ae9d10dff42ef3ef469a536d36b8119c0b24d6e1748fd4e6a557dd8b5d10fcbd4cd53c8fef5 0x48b381bf5e3def4aa52ebcedf2550f82778d87cf249e818738d4ee759f05472; P1 0xd3a8d96b0b065d3dcc5c9db2612cb0e2d9ff49c70281d1dc27416434b7a156a18abc6aba7c6d3a0b00252677f2a358726856d26473e2b84120f98b6512d60 0x731650f9f7d76ad448fd24a4d0989871dc75e72f38f5448b441c157d552900ec; P1 0x21267fe08bd8f520346470fdce08f762b4d4e9536b62896a2e64d30f4108cb835ad1eb48b9c353a11b5756c86d38fdbc867e7f8b4199d0cc8ee99ac8ce76e165 0x1718192411e3bbabc153d3c5cf5e2b875a643a7292521a3b1a8149349630c12f; P1 0x155b9decfec9a94d499a44158650891737d38f885d3bdc760ae27005398a31515df4cea0cc9c1a48f7d2ec39272bcb75ae81478317454c113be26147d13bf00 0x7870a295e97818fa28cd563f8d399b86d50bf2044793ee4075358a004b37d83; P1 0x244e49985b63f5d1e7a6cf0d833795cfdf10c262c3cbdc82a8cf3024cdba3f2d3d06a330b7605cd1d2faa4a90bc094c3c014d678d46c58df155f7bfdfc4247 0x558ddcd7ffe7ebfd0e34bda45863d8c3e0241aaf01761241fa854e2495065c00; P1 0x1251d3f9f858748c5276c79b42f475b6a8b5a4bf6256f31ac46341406a2d5edf12958db97e3ebef0bc9ff1e43f23a1a81a9c3f2442dfd267b81a1c1f84ec3c26 0x16380a3ab2f74678c8c255f1bcc49c6b5eb3f925000cbc4719fd27ee5ab876d2; P1 0x13c50b26a5f5782ab10ef2902d605ca5c32ffabe2a131000827ff587e6d275b0c01a7ac614b1587afb049a23dab9e72d764221119eda07f0d27481c85003040 0x388a45786bdeb14bb55f99abdc2eba6bf174be0e46e557ca60396917c1a4ec0c; P1 0x800465dd3eca74020f89561c6e91eea84fec1d70a2972cdfa1687903deca9d2bdb7764162abc1ce504a283e8c311913be5d1fcb6c96b84981c06e3448edc686 0x7bbb3ccebc793792bb7fd7851fa91eedea695f5f0e6c95837137c05911dff7a2; P1 0x265138e73c5214e78715177ecca17f695c1c6237e67d89f9394931017fe8e3ea4522978e76aa0f75b07c8cde94d5010f3febe77306ecc370b61febf421fb907f 0x70fa2a755bfb9dca4fe8bac3654b2fb0876f9188a7aa2a0236e55a287dd13379; P1 0x1ff22cfe5c8d0b8951887bf57a3aa3d6b3134ed50ba915c21ea6d96604902a0031e7a665de53763de83edd928e5f2279d4f8c022ea4830807c5dccac587ed39a 0x413381a62f762e9216fbde6408bfb40b3e0af633f93beb322ff2bb68eb7978a1; P1 0xaa3ddede3b72b9a6f856747afe0cf8d17417fa2c1e91f43b045e8561d1d39ec3586e0c012c523422a030f7e28b04050984906674c8f381fa36d067f4172a6ec 0xed40f5a2882d5069262febcb1b5a87a4297eeac3872bdf9d24aeaa19d0323e7; P1 0x8ce23e5325e725a2d6f41ed801d7f0ed4fd6d49a1cd5de5ba8cf7b12c1d5d27716759960e89fd0c49a835b59af549f662195d9d5478b14bf85c3233f4afc6c 0x27880a4708093d795541c094dd14aad7619357ca01c3a9eb1896c8a02b7429f7; P1 0x3e949e3daec3ca29690a8d2328721317a51ca1d974ab2552b625fe0304c67d46d6acec7e22127e17624296a9c9ea2fd98822d532eaec126cd913693eee21c3a 0x6620163c4a84151b148ff19478c0498500d8ceeadf8f66b878788a4d5189e7e1; P1 0x1a1a8b0abf4e61bccbb6b08e510f4f0360d379e77d1c8f281ab7215236a0f386ea48a11a9298faf91fb43d95d010bff4d02a9beae7a55e8b371260fae3e52aff 0x4cd525d5707b5e2b10f7ea32d0d7d5971b21029e83b4bda6e79a2a0fe70f7cd0; P1 0xec662f03206b1393e5486f24bcb2fd2a321f429145053ac3ca751c56fd75f564814ceaefb2d43a18fbec4de9c3202244007ae9b523d90a7f52ade703c13e535 0x5d537789d87b674843917d97a46e9fd1a307a9968b114c2f4c3cf27ef5ba1def; P1 0x15cc982179c8c315ac5c50280338dbcc2adf0e05994a315f0297376040739c02ca3cf07b4925d25c3ab084fe5a52bcec4d12ea81055bd994279c80b99c784727 0x2a0d09af95fe69ad43f2ed653a4aea597d1308687e3d1baae4a3e1b7e4b503e8; P1 0x46cfd58a43168eadc2583072929626662d17550657cbc9e2b6b9fc620fd8991bc1c038e55594b29720d8c9c498dbac5a13a3ecb871d3545076d1db908075321 0x7a8027612e72d39abd636a4dd3b5f0ed3ecfbbbcca2b486b2dbb972a2dc05a33; P1 0x258f0abddf25f8cfcc66f220c33a4aaa128f474de552365119062b1d934b04d7619c31f405e469dd6e3e2104d6812f557a563f936e2bdce1720b5f3a3c842794 0x34d63e02af59807294833528a501b6f44fe2d8fbafa0d113847052d6bcbab417; P1 0x6fcbf76338e5d5eeb4da24dd54983197954bbe6e922d93be7daf7985f41cba48d20e0ebece01a132156491b6b1d18e43906cadfc76433ac73d8f39dc544b4fb 0x47f3ec1b38705d5a6d99c8aeb1e9a31454995e06037cdba5a01949527b47bf74; P1 0xcf530bf687ec48c59735f19cabccd009a0f9c5a5facdcd2dea8732a04aeba9be38691c3664f13e3d220a1cae10e94d2df7a22fb004e06a9bff5d2b6702c0c65 0x6bc8ad45001b541431cc7d80ee353c4b8a20db5405a6255149ff03f435bb2b2f; P1 0x1d139737b3c48e1f7c4ff585e356ae3f9f70ff05be11e544a693cc68f528104d15f1bde78efdc4f617ac5d66c00eb202e91ac1b363dbe0be6f8d5fc0000e5f5f 0x7406935e63525fd2858604e6ce36469f3a25b7f1d5dad3d286477da23461a890; P1 0x21b179ae81fdf48abb79a61d4cbb8dfec552197bfb3957b743ff8e0f09938489a215815b4430e4e370b918430798173778660971823b993833ffd894d3723e23 0xf5e13b8fa76fd58234a9318f4fff3b1fb8aad1187d34b0060854e2c2f1d2f99; P1 0x975082d29522190c941accd49bd617af252b55b43f409034b3ee8caeb734566e0fd45be67ae054e7feac41559f67e162d81b15d3844fe878b37200666e557e 0x20882948a5297732f8d9ea6ba409a994042e00dd595b0010ca5467d71ea6d34d; P1 0x2a6195457e791f36afbc0719f8c9c7d1d65c2f510c81f901115d5c1b46a9d217d2b16c5820e3d7cd833b20df99b13f5498a912f156af6295f16a678872ac3d6 0x5c319aa314773d7857b9fa8ab800fcbfaed6d092cc71c195b6015d5722809fd; P1 0x154600b3ac4101e0b2be2f2e72e32831bd61a8f395f8c412c83b4fa26997c30f398431a0c4812229b7d69a9a3518593a5b5cf24d53c27a4a3fc12c50e00fd2 0x7eeec26a145d87fa643a92d1fde9a08299743d724420ca3f265ae655995c3651; P1 0x28535e9031e79b8a7553c6f8e678a36b45757d0ee27ee18bc3e9d04699e84ed395f2eb1090332a482717cf048fd6dd3947c2792fc4d9bf97de63a14809a5b108 0x7cff2b176e48838e03f02a341e3a35fff3b93d9f4e16d0ea94fa67cf9e0ef11b; P1 0x271ae0ef6b094ba849c9dfc8273b002afccf7fafaf3f4e901eccc20015bf69c77cc55d7326435120bc02eebacdd7b737f68bb1490d7671b66ce5539300c62d7f 0x19079fdd13db4520a49e7e0ae64ba3210fef803f30835047e81f82dac1cb2a98; P1 0x1916921f761e45a060cc02bb65f04c86e1c5183fff0907293f724338937434169c28d9507b377635f66441ea9be2b61293d7942909d93406d2b5428ce9f9001 0x56689496fb28ead7397581078ae05c00a2787def9ed62647194ccdb225bcc6d3; P1 0x12aff6a3f47bd4c040113a108bef42b27b3c00a15372f32a219d9cf415abda1d16798ac2237a2edb0fdad107af3eda7c4e59b2a95a7e697d9b60bfc75c18165f 0x583e91f3797f6f6f40d78960a6f5500afb6a4d19327820c0f36952621a144868; P1 0x137d68f972d8e16c11e334864705a79eea70a16d370bdae182062bbf596bee5a30f29754a63fb10e503bd4bf4de8fcf5f92a3053a8311af8a6c5f76f5d530ea9 0x69b45fb0e556e197ebf81edbe3dc9460cbd322153e6fe2986be637a7e0127d4b; P1 0x1bf72a598cdbadcd45c6d31a644be1f29ea9735132462c0261a300975a35eb5b3c3563269c32736df60aa40974f84e5b76f7834c0429788dbdd9d9827ed0b24b 0x770ae9fa5b7c62721f6be69ddaacbd6ced86e70c82fce9570f21a50b0bfa6b1c; P1 0x2377df956ec901a217f53bc02a0312a28b5a3450541231afdf40269efbabe0f3bde4f3f7f0addcaaf27f24834c1253601481c843bf73c4446480ea2d05916b72 0x4dc226f1ebfa4ecc5150c765d15276838206904ef4661d25adb353e50b4ea4a6; P1 0xf221676599202404ba3f55af051ec862753df1d1d708cd2bf2e903537b1e0312a9e08a60fa88f67b1dc068f84622b52a7aa441502054314c31f7b007dba7480 0x8b92c44f4648a6f364cc87cce06694830808824e3845a32949b333e33281eec; P1 0x30c1dd7f999bbc6de1c7b3f4596b39b9839531011dbd42062dcace5f116e4fef66c6591348311b2d9bd36aee16e6676d1156ab03bf07e18261d15c71732dfe 0x4a705e894a61b862c7c3e1cb65871a77fb2b15a55864a970902d93e35026608a; P1 0xdde61e6dd3617254f243f2dfcee138ed6ba3e60f3a4f885ae34157d2f3f0bf176d3293f1066efdb6415e87fcbd516abb01a891a33183c44a81e31b856057bd4 0x1e6b8aeb6f98e339ac703025f5b4db82bc7051fb1c1ec44c8e5d048f9608ee68; P1 0x250eb60a1a00a24cdf46f8fc094201f89b9418da8430b330d08f685582014e4479a91a29c471c302ffe059bf5dec02c44d6415b23d6d507ed1fa3f9f58c3f0e 0x4e491c6c36cd6fe793ce0e5aacb214274bb6f3ed5eacdac3c757f87637db4ca; P1 0xf56cbec28af49412285836ac5902800b9d330d10802a897b51a1f1a3da0271e745ad81e483bf86c8d908f0f0a0e023e83a808f70f2296bc71adb6303b1731 0x6c96b7a8baba36cfc299b0c9fd9466c06dc196af3d6f640fd0c1fa8c3d9d454f; P1 0x1d832bedfb18168dea1cafa7cb06442fa50662468e957b17151a48137960ab9abcd74b9fa7a5d43eb2c5c9a90d261f94587bf935e5deaec0e70c63babb90173f 0x5783fb7a86fd4837304d5279e36fef1b1ffce472b49b0b4c9959850ac5323970; P1 0x132b5477084a257cfdef5f1fa41e3ad7056502d4de314471f02946139b7a9cf36e427208d0b91216540e9cd433a5e42bf99c388c3814b4d16b48193a97cbc16c 0x47cf7a213b7613462866723a90135dd5c6e7732564ac005eac9af94618eb2e04; P1 0xce813a7be49b8cbac607c77e3e6deb05e99e543ce04c286d787fa89a516cafc3c27a4d4316046009f4d896a42b6f652d0b777541cf5caffa038d4d94bd0167e 0x1c5891ce239708fe5586f3f7f631a4eebce1dec5b3128fe36140dd049fc7858a; P1 0x202d290f1082b4170539e7c47433ed427a07f483da2d5cd341b0704b3049004b58cdfee36b26cee37b144e7a9beffe8fe3a4b76a609cc26af9dbbaa6c9013d2 0x189ebe575863956257c5f4d48f1856190509d19fccf0199de24d450098bf6242; P1 0x18460a52980662cc7daa4dfedd68d9642b806b0d4a359e67c927dafd4db4f05156b1e2421d03ed8729aca02909d256875c499431af360ddaa01d339b342e8de 0x84b0c7df73ef5e8bf0be367e097c2b9ade23c8d0993277203a206f7904c9606; P1 0x2c112f7055cd0f65e803336e4f3fd96da8dd51798ea5b8ddbad3616838f25e2e2d538d8bba58340a56e49e3726ced01f76a88e1dcb3f7434163316e6d94856 0x6e43ee1434f387c56b357fae23ec9bb1f1464d09b371a79dabd2df44fdcb6d4e; P1 0x1e6e46d027063936cad953a93e92bef0e85bc960ace1f9fb30efe898d4c116a80e5c6e94a78a177a3acd58db7377dc19f2f9d0da2f7dc40c1af1d2d649bdd3dc 0x1b7cfddf2a3c2c3cf3e8f6722bfceee7c0f43c12de7fa7c2e101e03172cf7f20; P1 0x1e4233f771deb1467ad0bc68dce7fde0cb96ee945da20da49c070126ba7da69f0fcc2b87f715fab292d7ca4373f2595f7abaf3c3da8b947ea8b0c147213c736 0x3e26687b6600d9b778ad8111af4da9c98a09196a537015871570558902749502; P1 0x9aae61bc17b136685716d31aae80518524e6c48d919eab164243dd867cb6b51475efc1aa9329208d4bcc99a3979586ed6d3d7802db86a6ab880f119ea09aeb3 0x429d9d4a443ef032dc12800a8f0d1717c8483839e32c96273b258d11c03455d5; P1 0xb1b5531dc24ba7371d0fc26cc2df0300fae2bcb75fe340c0d7e51619aca804e64cf2bac4fc7259212dfa2654047819f943a4c75b279bfff65d9fa877391f3c8 0x1b3072e92c67c11f4fef7408d971c3a5637f42f10d3ba7edf8f6b0f7a98c3d23; P1 0x1d9a9af9592f4c518b26ac1068e38ab431e507bc98f7686ec0292575d8f0af358889b19d489c64bb5d39ad7cde41e1df12a3eeb715252d2a5aac63d4d4dbd9f 0x7804d35430c1ba17e4363d938f95ed2e87a2c06f425066b8c99e21b1d12920c8; P1 0x240d6778641ee5a750b46a4acf99b93c5a3235610a991027db7f8ebdff826d80a91529346ab983c0f16076ba02c1398b007eaf7747714d56eae498343b78835d 0x5e5478128730ab4acd50a488c45b907d21aa7ba0eceb7a682f2434039bd93ca7; P1 0x16454d3969d53b5927397b84df1ea57e77250d0579989474c79918aadcc764dd48f3155695b93ee71cfe117efb3d8ec74a8d824a5ccfd34e7c629071622ac51a 0x52c5c12c3c6f98ff4eef5d55758307e19d845e8f0be08ccc34c6abed092dce61; P1 0x1125d1ce53663d15b26d85ccddb42cb3499ec76b1362d73752df49cb172bfffb0354ec1051503023990ad2abff13be12f8bf14456162d946c2f9b2eaabe2e19e 0x2fa9193f7ccbb1c86b6bae9bd09c0c41753b31d3e620083f1f799f5e0621719d; P1 0x5af6f40ee07260db9a5a4668a31fff170b72982fcbcbc28fb9e6eb9067ce1d14eab13cfbe37af357dac03817ac4ec29a9ff61f2848d7f9886f8b37d3cca8793 0x2a97e4875fdfe4e5d619f28dbf3e750f886bc981d251fa5b37f3bb9d929a464; P1 0x48a6802e0782e7e94d572d8019d9de160015d802d8fc853481a47496dfc46c95dcee9095a248c4807d107467987f66472e1913282107e40d70d17ef2e26b6 0x63c1a5c53feaf055388d98f7c9583d9f1562d952776888aef2724e5bd2419eb2; P1 0x18e81f22d813ab1812c7d96192a4dd97150115c9a3407a3711e5d279fc02a205188ba5550de06a4bd0e1eec4070f7b409b46baa17b90c794562aec8dc59ffcf2 0x52d1fa060b4ea1342578efaf2526fd0d66335a01f188036ec391bf05ab349bc2; P1 0x112ae291d13550e391c1cdfcaef1f39aff3deada0ea75bbe1a06b12df72dab26d0e239e12253bcf0ae4250557d61d0d8b76916073933126a09fc7f02176102d3 0x48acb9712fde3b2d4ab676f72fb4f46e08314333a5ebf07c7cb6d7883dadf535; P1 0xd3815d3af4d68f6d479e5bb6ec4ed201ec5beca9e27b66b3508b8ce0cb79744c15189c8fa4be6c623816aecda8006ac063bea8cd1ca87f252e27a6d5239e4e5 0x601cb1a19fcb59cadf335b2262a071b8e0fc92db7d3f586b97a798951641478a; P1 0x171ec29e9d4d59eb5c176edb1696660877456a095d08370888260afb336691c0ce10e54162de88e3d9d1fd190ae6214875a2b61e59c38ae9543eec487a302638 0x2ebfe18581d565d26ad92f1aaac4390776e95c7dcf5dde9365193461ce3137d4; P1 0x578539b6d1bd9072172983b6379bc797610cc96ea648a76e51c987af24937d30b3fafff485af0d24f87545e189c5d401524746366585df7eda946509385a26c 0x7d8055634c94f31cd53254034328202d8b93c91f589fc0f364c2205ba8819eb4; P1 0x276bdc25ab4f2860d94c21f86766865f570e64d9e0b9cf31cb8865a29bab7e9e58be1f218d192c759aa4a3ae77eae4a268717ad411e5dd8041c1952acb4b23ac 0x5ecec8c5687ba634a464bb5f44535429b6c9cbe252d476108f957aac92844b74; P1 0x167f3421c5150440ce70e217494c0f0a05c4b6f09f13331a560ba342470ec551fd6acaa92c6d99b881dfb2ac5f54eebc44315bcfc0025707f5aba1c8eaf59d8a 0x6c5f44933a0a944a27c5575da21b8d9a06b330c486c1177a13ea94c8970190ee; P1 0x1d650fb54c8a887763ce435dc1a43a7065dd0e26917f5ff2dd4d82678b1c54078b352708ce9c94ed1c0870c2d2864687a7379ff4d2afd099e27ff312df20e605 0x7c9406524484524b6b296df82d95ffcc4fab7a7ce3974f2a42878b62eae914ab; P1 0x26d7f397374f6824edbea5a318c171ca9b2192593abdc33b6b0c368e199425564b3031bfd1ca7dc1884520689b93e79f3ec91dfb7be2deecbe9f6827d55f280b 0x3e62804705ab5d8663f41a64db99f551ad53ae0e9dd7639d59c5b7419839931c; P1 0x9bda11ce14825c0d46e4a6aed9427a224592293676967df4937d966d937b659eff3fb0be20ae3a78999c1ac829280b4b739ff6caaaee8813a9c6c058c6758e5 0x28b46ece8b8a531ed7d64b93d697d929a1fe55411d764eb4648e708ec629842f; P1 0x4259cfe5f41a12fd2a2b742523fd25e317d415677a8d422b2bd69ca49265871c5c9aac126412e2481e21d88adf297aceabbf5467077f6b6253e5d97cdefb54e 0x7ae8122358bf6705b147eb4a9fa94c8d37c9fe8227367ffd3bf7ca8c3f0ad34d; P1 0x25cede9cda5a6358a6d8a3b5988d1084f6d1e57139ffd88766fe1c95ce8785fbe6151b147cf4a3851e1d0d740bc9ff4cad6c78bfc4b7c5128e70b0ac0e2bb1ab 0x2001cad27ea6ba05835275e42d9d129d7b73de22e95ed06b82540c6ccb1b0cc; P1 0x29064e84862c8dcb963aa5eecc92a05b1a1a294db7aacfc9b6df4e6ba3faee20f831cf355481a8f1e306361c1653e824941a33cabc7586813bd0ef619a82a 0x10f6641293c4ca92180a0e0ce0434c463d5ccdca0480816ec90a5ec6db73fcce; P1 0xb85aa211708161905b643468e088b4bc98cb3f20ccf0eff7568a7f25bf1f4cd5f5644f7d4df3b6dc318ef2de69d55ad0c96e34344453be9fc3c530bb5d9765 0x128f74fa6f06563bf93db4c3d3dc52b9a1ac85e064a27d5d8919de994eda584b; P1 0xdcb931e5d81e5bec650210a531ac4d6ecb1231770b4621d2454e90fc169474b3579b8b483903036baec0f452c57a208bb8b0bd6b6c698d1dc016d7baa9bca5 0x68003bbe94ca154a854b93f19053ca90662c2b2ba15f5bffe219eecf534d65ca; P1 0x1b12408ee5c83b3a1ca72725bf073717bbdfd36a698cbed8a3773ddc20ebb8e224703f3c9f29641b40f834d0f2f7beb541a9ec1d27d4c647a0afddf4f798c987 0x12db6e925a86e44d09f8231e3181d6998118a6f3b40ac3d6e7ee75a1b1cafdb1; P1 0xe3d6a88f03d5e0398ee9836887be1823e562e044fcb535c6fe99e4327c674e8a5a0bf41666ba6abff5be6fcb1c51ed6dcaf9878c78147811f493037894d77b 0x28eae3f774b2d934feff81fa86f439f39ac38a16c4fe97456de1a9c90a992fe4; P1 0x430bd032032323695e38d85f1b83b109f2d52c34c17d49ae075150d814465dadced45ef382e0ca4365b083a513415fd122680bce688d85d33f2ccf53ca96932 0x7fa451f724afde80f05d969cc156051d9daae0bbd32020140e78cb920b7cc1e6; P1 0x28c70d8ec3a95d1e388fe755218d4a43c2d683d8b509e9536fe768082a71d92823c27d017f4d300e8e04ffccd2280409c84f94ae90e698105fc0e072de170277 0x2f5c15c7c15e8d08651353284425847daaf9b657ed0aa62735b6641a681c8541; P1 0x59d1e7e4d2c3b6d5c27e189bed7a6b9a04b2c0d38895fd878fe4e50bd787698c87fb61d7556bd8aedda85218ee0a01d132a850412c5e9955982ccc7ac9fbf27 0x4f47a626383be0848ff5eaceeaffb7058b11454f5f10e30a51c01582b1bf0808; P1 0xfbb2d46d34d2feea889dc706e1bd50302ad4af29fac1b1517782874f57b6517835605c2e5e91506211f0fb1c66f48324ceb8f4c151095edd38bc18376a4baf0 0x4ed123314ea10164e6cfed464c2ccdb6720ad7bd7d46545e4c8cd7b9a3798890; P1 0xf8c48604f3367d68a0b3194228d94e8a84e79af97173b43d0a45bf77e43d79533081451638e9536da703e147e95878bd2e17d940f6aedc3aa0105ee760f2625 0x6665978a2e461973adbe2980cc42f2368dfbdf3558441825100e521da8d667bf; P1 0x1a3e1f39e6cae59b38fd45aed4cd30a91fc416f6f2a41c15bfdf563bd0f1083c55069709ce2844b37aac77385e9979a03885e32989fe13087f5bcdc61b0db1b3 0x4c803d9d821a9a8946ddc3b52d1621ed4e6631918495a2f1a3e29120ebbfba6c; P1 0xea5cd3627572e6605ed7fb7094f599e51cc3db5803fddbee1c15df8068d606b15ae6c87c3217fa82b56b18a86244647aa2fe427d221e73b0d820b1a7cad389f 0xdd18ad3217d36af93063676ce083d243bb785b5b5de2f5ee556302d8634867d; P1 0x7a592d0e140e89816fa745f2484fb1a7e2762bdf6f05bb5273c5adc72a36b14e4f9ed32021c73f44849d57e63ca1c7d6ff3bc7bb2a7bd8cb1b9fb82fb69110 0x1052958524ab62418f6d265b75f8854d446d0cbe8a4d0f56103338b3b326eceb; P1 0xaab52b9a4fe94aa09867104fc3b05f97cf9da72301dd8bc1b9d1467b4fbe605439ed56da90e3843e4d104ad78f738dc49129143b20f0877618a75d2a033a57 0x5160ead33318031604d41decdffc048f33cfeb5955bb55a4d11351881c533f40; P1 0x109336ee7c8d7acda6a249096caad895f7630f3d79d492ed68b4096b9bd20d5bf6d298744b9948c9c37e7d4ac40c6b0ac6b1bd0e4c2d9abe3f0b7c8a4d215244 0x422e7188ded0dc2e3e38216be61874048cd598dbc454f3a50a19d8013ab4cb0c; P1 0xaf661fded31ba1f7c55e5f66647a3525d9b89c2762810f5500e6ae49d05fb0af66503ed73a587e673698285f2cbcc16c0e32c18d3bd4d4ac271b1871184c963 0x50e562cce407d6f4f001e8ff55580d2588411e35027c00963a56b8959c37e609; P1 0x10610add9b5e5298435d7100c82f6f06eb4ec2954c20e2e846425dfb283948cd749cdc3dc8c138ff6cec58d4b68d2d06222633b78d79d91957fe19569ee4fe23 0x45b2f23ae252441ccad655829814a872d3f5ff0b31f52616441641e7b2000c2c; P1 0xc28a21a7ee3f43606fb55a45a711e814e8310edb5209638b7e8f8ea8e6c612ed083f73d6a1588a946dd5281d1d84f94afdeb6ed48bd7dfc10c62b5c2bbb3b45 0x3647156690086f2d200b6663dee9e92118b90940682d1690a218e6ec10d616cf; P1 0x75fa1953479fc3454c3cca0044713dfb5d41afc827463d19ac735a903283e521abdc70aa9a21663482e36c920574dbc05a156b657b39c3e513eef31f84fbf88 0x237e3b1e5888609b1d1b3165171be5cd64fd7bdadc42ccbc02ae0e8c1f737ddb; P1 0x3272a419c088ca7a680786174905eed1bfe8d78ddf5d00a685990d8713e517d77dd88ebc6d3731b2cfedb85b0166c7e0e26e0f370be4db1f64475380cce06ce 0x7c18fb9b36720adf72bd94d7f3669eaa94550008897318faf658261f5301dcf5; P1 0x268b5ed8ecb7334d324b3d7112f09cb3576470f1ab08bcc4477b1696f9645aabb310ebedf4dc4a909a3bc3dce6ecb421c619c4ad7df5f51d6e559f915114f9b2 0x5935c48feec10dd4501999ae53b8e8ac75562bbfb9ecd5f0ec8198c504a9d341; P1 0x13eb336d9e22ff049d72c08fd383ebd743622cfe5396599da513fc51898b2067314382bc9d8c64a01be5a32c0e3f210bb99c36e2db82e4842517c1f66697f05f 0x44f7eb9737e814f12e3b777ef873357cc04dedca343479d2f68a59354b010330; P1 0xbe7b9296088450cc2ff87ce4c80dd3fe82f049278fd97e0bb28cc672a0af2334a25cd47b74b1648a68222a7094ab671785a6414b9cf977fdcafe3d1d7cf7d5b 0x579b4bf9e8fced8ca038d75778442134ddf6f567379176432aca0d3d7e3668c1; P1 0x13358c7c02d3371b1aa78fbf5abd8b9237c4bd79e8b0139d829bb00e60c70ea5e3e06ef8cb3917e52ff85563160328a3f6a66a178348be05e6ff2a73cd4433e6 0x5a32db304a414261cd864da581dbc04ef62267e89997f25118abbb451566735; P1 0x145cd88e925c128a5deeb3b4459b27dd041e4d2190f286565e58ec6d36df90c569abc8d4716ef8b49283917c1a3895a0530ace94087653fb728a5b08d93150 0x64f2b104ed0c73b5ebcf1fd9c32730813b73e9ba7cd46f1a1a045a6e91a0f7b; P1 0x19815af42c98cab6273b54f5a75641fefaa0463d49d701cb2aad32495a1e24db5314db5ba5ef36089da9323a1293f326f77ff670b325cadf7ec50cc6237b69 0x2997680f94bc93f7167ebcd73e805c4a4adf6450dc782eb01dc8ff2301c0ffb6; P1 0x4545d3b4d1a6d2453f2d09a1fa49f578d40de269c09e317c8f40e69056c4361d1b90d50333d3884e7ecaf469842baf6d427ca14fad1c055e53d9dd75ae4b24f 0x45c41ab963a313f7cad206694302353a2a6cf65d8285243d04ba15a9fd95ba89; P1 0xc2e9f59037917a85b9002ef1e5370de57475a24744304e5bcf9289493b432f49584edb3508a8791afa33545ade9c5fd740e77743d33fc1b335b2c2fbf15653a 0x55f7560c0426456140d2eda3305ab581c419942d035f767c557d7bc6e607e5e1; P1 0x127f1b4fa4c93c25f3df0902dd6b8073bb3f9faeb49c7183f4d1d6f8a78f38281992fdd08b4b10bd47d150ce87913711632f61dc4949d8868b2b73e2b63d80a3 0x615b45977159e115bde44b5db629aed937f67640ae7bf59ba04c8d81e3accbfc; P1 0x17b905e1a703c5f814e8ef52d390e4a5b556a30de874533ab59a84b3c53e1e205002d5acbaadf01395e9d826f8a90c002e7bc302b531ff77651c882bba476a66 0x5a92f0e632dc29a743b8258fbf9a1f4b12d98008c3c4cb6adf8f5ffe55654fc2; P1 0x148851b62fed1affbd44aa5384fdf23d804d0a0d48695da74f447abef7e698f0706a49018929553780a39b7d147ac03020942fcdea5cd8401c2e0c403e63dad1 0x702c0a553518052e86107413dd07dab72cda849186038d383a9fd3bfaaf06d0f; P1 0x1f7e0560ac27da6c976420df1cfd1c68a31778ed67defd306105c6812de450b68fdf319eafd9cf89523a4e865299dd35cd5adfe0e4db8f89bbd1926f61555e92 0x2f2ba5aa11bac7ee214acff9e550d26459a5a940bbb3bc127684a66b27261e19; P1 0x591a8b06ef08aa5c94293dbbce9295d6d095eb8a1abb38a21d3991a11c515d69be0c17365b886152dca9a5fef44cb88fec90ed210f8e91678e937ac4363e72f 0x40a97c93f5d76fcec2c2b0e602a6a4b965ef0cd31742bf5a2e791b394584c270; P1 0xa7701af28c2a1e75c062176a47aaed2a070ecdf2cda6d1b159b3f17210dff7c12732cde5e8b08ef3f6f67249a53cfc4b23728444dacc98afe54ff44d4a852a7 0x5d6769b930d780ea8f52967e13e0b206b0a34034e60884942da7bc5bfcb69565; P1 0x15d5ea8af042d0b67fde29bd350c4e6f58c37c8b63cb9e00a6abf9935349cb7cc094f1390f66109cd0de0ab9032f081eaa87e0e758b9e99621a6dd8e4d991c85 0x30f425edad28d0293285b7ee0847138c8c5e8f33c4c4d9be8ba1429010002b0a; P1 0x5ff7c69680c8d3ba1982cbc41831000302ff9c01bc079b0a0f0eac8c9518531a9f2e0fbf1282db09e261b38579aa1167247ead665e4bd25c194bfd6063d389b 0x10539b436f460a7beca7461bd17b6e67b9308920539a3b7162883eb6a80ce72d; P1 0xaaca8f16b45e9f8aaec0483917b26da904465de0bb1b4a349fd36c3e114aa12263bae7c16400b88b07019b93f38bdeb7b56bd0e73f7c347bf7114ea90db3f2 0x69272260f7a154d389328881283cb0f8f83bf245f8edf3ff807ffe6d5ffe51; P1 0x1baca086b43687e5c600bd44791e18c448103f8451f0528abcd1ea2d250e84be27092eab957c362074c07848430293773389a8d9552ed2cdb6d6514d3da3 0x597aabf4807c14769061de537dc5554521c0b993cc30993aff619869f2e6109c; P1 0x140a045572bfd50b7cc8d188cb415c1ddde93ddf048eaf3362943522122c98ef6aa38879b756e669705cad18a8d9d285f8aebdd2b0fa4cc365eda5bed9d70ea3 0x72536aa3104a85daeebcdd27388a1d460dd10e09d678cfbbe680b257f2ac9d49; P1 0x20b6973ae1554496f9e165340f8cb9d30c9c1cba3d5e5fa012ca1782c24ce44fe2b1379c3e4bd4e7c9bf4707314be8e4dbe091388ea3ce21b5c2a5e5533d237d 0x2452a7d8d7f6337aff25976e0fcccfd9d4a1e4a78edb949dd1730ff7d277b95a; P1 0x34d58e590f92b59761225685f6515a21811b3f24724ef1e5d9740d56056aa5154d215e5c60fbc772c28cac33f6333dab83d3a077c597bd96551c272c9bc2ca7 0x458e8ccf4b8fef9c5f630c2583852b4d0891857c2573b54492022780244e11d1; P1 0xc1bf2a4919244fb91bb44264105b5d322d6243137b272c46b0b871d7cce7c30c6d2c692d7d5741441f2edf32e76c63a73bd7e889d147ae39c5f52c0701f2916 0x192f5e911f0efafb30417ddd2a565707b9f7f2de3fbdfcb2dcf2305cc1e4af25; P1 0x19667e412ea5a3ea05f8d39d577518f3565d2eea0b6f5ebb538c00f7b2397477bac6d47985cb961454b4578d0a277baefa0974cf3e2e0013f592908239df295 0x62660d54bbf29a5b5f521b940222644731bae82f02412dce3aaaf85d3aefa2ba; P0 0x4ba495c7003a7546f5537333beaec8b2bf1b89314e4ca32e590fba0f0f7c990f 0x31e235b69712dd82356b54beb93ea377fc7022ac7e7f03ed2e28e04facfb4b41; P1 0x63a606171fd6c61c00e86b262403e02bd2ead1fc181f8d973d0e850455a76bcc6c57c5347a2a87e10c717d458ffbe6bd075435df13a5a005cb5f58430c65c8e 0x7f3b45b75f5372a69a3ca4fe26b5549dbcf306dfae9283fa09c5381b3a95daad; P1 0x28840aba24eb328ffa28728a33366b7be13ab5f2a0c7f8304c5fda9c324e2da7de0aa38e895b96c222fa11d3226a8e6489571f381833cec5f089eb8a1523def7 0x2b8324804fc1df0b2b4d00993dfbd7a72f431806ad2fe478c4ee1b274a0ea0b0; P0 0xecaa2e2f6a2302ccedb31ac05720688238ced2078f3eb0ec9f22e8f621972e4 0x7fffffffffffffffffffffffffffffffffffffffffffffffffffffffffffffec].
