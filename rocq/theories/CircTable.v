(** A point T with 4 T' = T = r^-1 G, where r is the x coordinate of the base
    point G, and some small multiples of T'.  Used in the examples. *)
From Coq Require Import ZArith List Bool Lia.
From Verif Require Import Base Primes Field Zq CurveSpec CurveProofs Secp SecpOrder.
Import ListNotations.
Local Open Scope Z_scope.

Definition tk : positive := 61270956658967217196475567844329901856684408245920137077813907275443178596576.
Definition tx : Z := 0x6767c42a7c6edba2195f0a5a85d7d02ec9213cec9f9ee3c82d01ebaa83daccb8.
Definition ty : Z := 0xf11e1bcaf607bb6500fc43228c80291413f3ae4c779f0b6344c2a7130ba982dc.
Definition tk_cert : list step := [
    (0xcb35b28428101a303eb9d1235992ac63f58857c2f631ee6936d3aebbeddcd1b1, 0xc6047f9441ed7d6d3045406e95c07cd85c778e4b8cef3ca7abac09b95c709ee5, 0x1ae168fea63dc339a3c58419466ceaeef7f632653266d0e1236431a950cfe52a, -0x3b04fbed296cc1277f1659ab9a6f3feba665d74e98725ee2d39e827bc28878b0, 0xa14e3460febe2c2316bfcccc1b764790c3b7d9ff92663ea740240f16b583e774, -0x3c8b95972f12b04b3ca25330b2bd449e8e938229d1fd14f76cae42249ce0dc11);
    (0x6ad2cb95963c033328d4857d4f8711deff557dd9faaa673b400442833f0efb64, 0xe493dbf1c10d80f3581e4904930b1404cc6c13900ee0758474fa94abe8c4cd13, 0x51ed993ea0d455b75642e2098ea51448d967ae33bfbdfe40cfe97bdc47739922, -0x1b511f0c4acacddb11995426b44becf23d1a165eac933b36c0dae7f6c721d3035, 0x2c933e2a83bac0c704d83956ce68e1a07920f532e04e27ff098c8c712d51733d, -0xcc0862604f39a0c08e4ce0b1d06b205a54268b6c11e626473e3a3a21a84dcfc);
    (0x9693023fb325cc6c7bc993eb684358ea623d5feea8ff351df662beabd0efdc6d, 0x2f01e5e15cca351daff3843fb70f3c2f0a1bdd05e5af888a67784ef3e10a2a01, 0x5c4da8a741539949293d082a132d13b4c2e213d6ba5b7617b5da2cb76cbde904, -0x203e697a2ff0b71f15bbe8e0b1128a2612545720e641a25d3f0da1b92ba257869, 0x58909b0e3b1d179e26d093a041c3e56b0e5fcd45c4d389144042c9dcfcec275e, 0x6acbca9638108e08374e790d2f8fb746c0f38f81a62038c77abfdadb56826ebc);
    (0xbc380350880ab969e653d334691ca8c2da83b2acde59e7439ed92d96a9654a07, 0xe60fce93b59e9ec53011aabc21c23e97b2a31369b87a5ae9c44ee89e2a6dec0a, 0xf7e3507399e595929db99f34f57937101296891e44d23f0be1f32cce69616821, 0x6dd55cce46f1224cd99f821ea3a2f0a9ebe970a9b8ce11ac81430dc918b68adb, 0x8a62511fbb16418a37f7a5ead3f099487b15785e66a133e078848957eec143eb, -0x8696444c9f994992fb103911d7efc9d6af6d7ba29b92732df8ec73823bb24fdc);
    (0xb68c9cb56c4f0fd3279f2dec6acae3ffbacfb8384548d24892d676cd6beacbf5, 0xd30199d74fb5a22d47b6e054e2f378cedacffcb89904a61d75d0dbd407143e65, 0x95038d9d0ae3d5c3b3d6dec9e98380651f760cc364ed819605b3ff1f24106ab9, -0x10ab9b201128ebe909e6b37287520fd58164cf175e3decaf3a10f957ce0bfa99e, 0x822c3c0dbc5c7d8c3c32320b58378c5c160825393d62371ce9fa174521d13e00, 0xd9690ecf0b9571b77cc0887ee3bf9fc63a5c7330cffad04355faeac0e641f21);
    (0x1b559c5c4f337ebea1767aa85161fe8123a8a489779ad663878357631a0a4142, 0x1697ffa6fd9de627c077e3d2fe541084ce13300b0bec1146f95ae57f0d0bd6a5, 0xb9c398f186806f5d27561506e4557433a2cf15009e498ae7adee9d63d01b2396, -0x987f03f80705ad0314b5cc8bac9c31bdbb985e7d6cc9710426139693cfe2277, 0x2eb2b9cad8216be28a276eecdf1acb99fa0782ad00238d8bf1b229dee13bb3e, 0x141e256794e71b00e243ffe2f752c9325dbc9c330961afed871ad25de7d7b09f);
    (0x35eac50b4d5cd529866dd14593966d877dbb2e2e8c6d1d416fab1e162e70b1f4, 0x79264c4b4bfcd7fe3a7b7b92b6c439f3a5b3abcd29189bf7b54d781ff03d722, 0x6f6f0e0784eada9f92999ee9c438d47eaa2c8068f1845197e3071c74b063c5e1, 0x4844464e2e070895f63909d9039864b13a9dc391b15c602cee9df34f907e5d2b, 0xb5b0ce37e5c43897f006dc4d607f8bbe20dd48b20b2dd4f270671a3bcfa791c, 0x329efc065e48205278f9e633415eefdcb924a569dd147a2dc29f9bcd1f471ab);
    (0x450b7f3d609dcdcfc6f31a456d6a6d5eb87cd41ad623e4d63c3838bdfacd0bc5, 0xdf9d70a6b9876ce544c98561f4be4f725442e6d2b737d9c91a8321724ce0963f, 0x55eb2dafd84d6ccd5f862b785dc39d4ab157222720ef9da217b8c45cf2ba2417, 0x1ecafd1a7c107788d986f8b641ac48cc87295f8114edf3e174e621c89ddfa0b9, 0x129f331b4499531572f91d199e64f4e72ddfe6d3554076d14fac0045648ec160, -0x3a44ae0eb51048af94eda6db8a026d852e473fb79826054379ffc9f8aeaabb07);
    (0xf29edd723c87198d0e4ee6fdf9f174b7e39bfa895bcc19fd30581dfe7c2bbb35, 0xd5f66020bdd383a875e8b46dc5a91925f17d3f1f5eeafb4e2b1f39bec59b9618, 0x8f8c3eec190df3d111263a75d9328a1c879b9ab8e9b75d4a17c5de9e6f3aa216, -0x1a71fbbefeaead247bde810b51495a91a86ff663ddbc061db1f27b0c20fabb093, 0xe5f0bd421300928d71eabdb85b2c307815bce0821c8935dbd13258d3df24980d, 0x925eb146292b1699560c2627c19fbe69c829e00f5553e7cd98f6a6013aad7fa);
    (0x34945a0534396967c17b7e38c0426d3ffb69423c5ce740e394a3c6b49e500a3c, 0x8ab89816dadfd6b6a1f2634fcf00ec8403781025ed6890c4849742706bd43ede, 0x6fdcef09f2f6d0a044e654aef624136f503d459c3e89845858a47a9129cdd24e, -0x12f0cf7ebafe377c30e0214cef1468410c2f0ce7c4b48a157b038ffd4dfafefe, 0xacc9a8a52e35e07799453dba580b9a05c0cdf1ee2945553e765df38b32dfc1e, 0xf7426cee7b2825a967e692941f51c8b2e8914607b4474d8c2e6e72f4237c10c);
    (0x8b820bddf0c3515ebbcd151c1a19914c06c7e29f0700309aa378a75d979bbc8a, 0xd1e0265aa86ae428c75f9d4d45b2b643c8245d6ffb4bbc43bd6b7cea1ad3ec49, 0x7d155e9e6f356436cdeeda144cc7bbb9f35317b8a2104d985ebd43288fc1b3c0, -0x679708e457320475151cd78c00e8ea3a181521a68537f62fc95c81178724e8cc, 0x4c067af3116973d5e0cee0808518da6c78b1969edbd6f647f86eacfc79ebb2d1, -0x26c69fa17236fa65fffc57054dfb233420e1529990a23c115543a39b6e116b04);
    (0x68655cbcc8c3a78452267a0af2944f4cb207b10ce4721c31e7784d5491ed1dd8, 0xea624b3062aada82816c82736156be416134f8951d59c02d6b1361fa48f9a376, 0x8c6e2e7fffa61ff6eb87e8fd0375d3d336806b7a6d490dab57fbe8f10b32afd8, -0x19e2ade4c473858d523e08393d50b3f76d3260cc8b5a188a94492beb53b4888fd, 0x2a92837bb1ad9e01ce5f8630e38634c5d2f86c1ef696d24fb8ad33e493a95348, -0x9fe93303404bb2701cb6d9ea8b68585fdcebf13dfbdc214b0fca3fc1bce2a70);
    (0x7951c1202e125b11ad7190861962a369d6b4a3f84dccb528fef5ccc98ff01edc, 0x982a37ae625f6e5b78e71c180f20bdd08b3308eb59d0cab2dbc20937938c1cfa, 0x671fe16f00a65128591249e20b5070bf2a689e2bdd6c57dc18e5309ab6a40d0c, -0x35616feceed772ab7a4709fd16590c4ab2ee8e0e90c144c49447870323d6acd8, 0x397e62ac339c0b37915722781a60692248514dad32ad0df399f9dd5953ecf178, 0x26f6c2fd3ac92926e8e624b7b56265879bd91e1ed56ad9be628970e63f527614);
    (0xf1b28735771e31522c04de83c87765cf14af4c414556cff97a8f9c3faaf7af24, 0xc3f067ad01d927b104ce761b8e49d56b89feed6adbd24913e96e02fe2a7136d4, 0x6bd4cbd194f0714d5ce8fbf3591403954a3efab970f508dad6b6c0fe59618d03, -0x4c9c9f8901ed90bc3084e3edea896a9a8bc6849c6a58a53abfd3bf3eaa66f8b4, 0xe4319f12f809eda5af188d96e9161af52adc0949e7febd445791e4c7fd65fe38, -0x29541a1abae1f9e49349d4fb9fbb4916308329367af34f3ffd624a209ea157f9);
    (0xbfe1df055af55c51433bc6923d15ec1efaf420bf9f1b26d5034e8fd95f5d8112, 0xfd87690e63a50237258b8a58f0240552a2d0b952911d1fa8be13eeb89be8bac9, 0x406dc1acccb968f56fa3ee35247fc66bb40f04e3ac51247458e4fea48a1b9225, -0x379cc5777dc829544e6f3f1f261eebf30e47338ab3b02865825593a87ff61ca3, 0x8fd2d213c76e57a1ade7ffc30099d92958380ebe71952a5c0539e953b63b8621, -0x2b2a79eb9d2b3011b9a09d21eb27b7672855b7971a1cc5ac69396b18d54db83e);
    (0x9d253f74335a9452c70740d93d3007c11cffa8cbb534d35eea2061ce9306a26c, 0x5c4bc63ed9f3314ddc0897c7e921d3753eea64022dbe90ca4a427e14f0e8236a, 0xa6b145f2755e3545072c4002b62e4f83a86da3b1e712f262e3631c106d21b444, -0x2a225689aca07aa2f78008a4bdf7c8ecf3d36be9d48f12cdca204109cd2c16bb5, 0x6076b53fee4e58219170cdc2bfc6f036d83934063e6c46353a787af59b693bac, 0x62f9086eabdfba909cc1e5bbdf2f056294f792dbe351bccec22c0c3997ce3545);
    (0x299aa12d76e8814b452467317a51c6d7241fba32e47e56185a782b2b1f2e1ec6, 0xf5a57dfad2b25571dad09304cfde1da205cab3e2e85895cc9933e868eb9bd5ac, 0xd265de5e8fc90e41d518dad268997a248eb90906becba9b0c768c5e9877c1ff6, 0x4c92528fd4bad9c0e7d1b586abd9700390f2b7cb4a3521bdd1e630d4bef6ae0, 0x6c2e506e043c0c9224e24a416c5b240edb6337b9ac83cabebd9c99415fd8b6a, -0x18ebfef24a7764b2e4145a5937dd42ac383e300d1291280b605775e8f9ba359a);
    (0xf7fdc2ad528430a34f891dd41d95d2448d0e8daa938beb59088db397d3b6be8e, 0x9a39170eb8b2bdd214dc60cb02bb359147ff0f19bb3f561f5b930a3a8d85378d, 0xa9b6d5de2b5841f251fca8506808b74ab7a1dbfb316f4da5ef750e36a07bb78e, -0x12b80d9e5e51cf4b8701918c4d4238c9628100792f82da6e50696290696a01cb8, 0xf03ba934d3db558c41400144677ce5ed6512e8d857b7c56b3e0291611e9be751, 0x589036f59023b4609b5048c40a767ea6cdec4d193e6d723217c06a85f1e829b2);
    (0xf419d77ad5cddcf11eed8eed1c3e340fd37e76f5197cb12d4bdb535119ffbc3f, 0xaee101944e459d745a8505fbfe358fa966d2325af9cabf19e20ff0086965194c, 0xef33d8012964ba33ba671d889e00206260216d2f7e87c29f1684ee64dd63ff17, 0x2cec95ae4a7417242a990bf8e2251b1e967edc2ea1dcd5270420763815ca1a67, 0xe8c1455df2edbd710df0b1d33ef6bf64c26680f7c820e8a30c56448a3ba684d5, -0x13b2215028d7df31d796ce33d1f366d1b88f4be7aa324411949e4db5ba6c7a3a);
    (0x4765207efbd6fbc0f66952d421993817910f60b3b2be74b404105e0103d3de75, 0x38fb5cfbe4f348cc1fa7f9b2ea600daae8330aca53308f09b6a7d8b85ca8a88b, 0xac1bf91b7f53e824d845c0f69534291fcec2808f95acf58e4afba07cfc735be9, -0xed19668c883f048bddc34cc01b30d097ae1fa1bcf35938e73227171d33cf72b, 0x13e93ff91803f53a4d4030d02bca86623e0987fe335070866cd1512f921f2416, 0x20e1433764ec9d6e3c910cad5cd932d132320fbfc24c5b8c94cf6354e5e861db);
    (0x2b974e73f9968f1fe524997b0162886eb799de18e76755deb755d3490a8c1af5, 0xec33938737efe468f31e34365680d57694cee5c0c776e2fea1f6ccb906e43f0c, 0xab51d49547988083377fb4e9467e35152176f89a1d54d0f6ea467c1f90faffc3, 0x149009b31413951a4b407b26da54b636dd3f030ce01677e467540239dcf6cca1, 0x76c2dc89ab3e4537e6cddfea321f4dac23ab7825afa8efca19a10332cd62e59, -0x1e845e3de4b8693293f4f02f7c1b44af31d1a3ae9ea57f9ae855a58c95a6d5af);
    (0x7e10929e82cb5d7667c79590433912ab78eef3558ca264d57755ce4ed8acd11f, 0x6236a749241fabd0d4bf4a8e24ea4a7725ab4b686700fd80f5d4d1d046cfa10b, 0x27a8f7bcab9dd01aa45187c45e267515a2b80e59587cd274b321da15d0796dbc, -0x385d150a918c3b4f05309092bfe5b985b51a60dd3e10221c5d0c30e1eba77acf, 0x3e145166b089b8c1e96b092e127848dbc40472439c5756e898b39be79a70b88e, 0x43f36b1d00f6fc62f2df8814bf921c43a2511ad55cdd932e318f453ce2774c60);
    (0xa4442eb62673f4578f1e7dff4218d4d73ba93dfaee7c1582fea631f1afcdfc0d, 0xbfb4d7b92ed8a452e81ac9b181d5de141a29a553d0ce5e8bf55eac193a69924, 0xb5daaa614e297346310abe7182e7b58561e6cd888f5a9337815fd8076923da4a, -0x3e240d967e2c7954b52c3984ffa69a284490ddff9824f2cce94899502caae31d, 0x69676e023a8ef6165c589e9fdf4c7a297074942e6927491fa2ef8733d4f3c2c1, 0x3754fd0790e7555686211d0427cb7bce283927f9131c2c36af330f25f994825b);
    (0xfd7de9a51926a8b23f15d4735114c779f458ff55b73effc2f5a4a304523a79c, 0xd45e2d08c7b557dde8b3420b80ac7de9bc4ff108f95802f9f8fb65570a268352, 0x55a020dcb5891b96c1b8996d46860ab088c32e6c9a05343298a26b0981f43b6e, 0x14d3a37721e1fd34f73ddc373c74f1356fa761646fb7b7ccaf8b923543f9c100, 0xfb021dbe542eeb72dc2540a1ca2573b23ac655ee1f30c18645d36a488a1a6a, -0xc66c4618edfdc15a94704ec7ae7a3338ed18ba984c22391061d40d379524040);
    (0x4e6ee94e94d5c411d777bc8b55455e344d517f345fe327386e91ed9af3d32cb9, 0xd21a6369967645b21d0ec112c9ea7e8ecbd5d902bc1ce9342d079ad590a51a10, 0xfab7fd91e15ddbbcf3a41b31013a87049c4a91b1287fcf2ce0c0fb25c2e7351f, -0x1dc0c91fe2627ce6feee7f723fbdb5c60ec053368c3e3989d01b12c09dc42fb30, 0x1807c63936da4e3b8655f416aede6593963b8e4c582de76855e8e621587b3293, 0xb1a29f87e2c7a96851b8706650f1c416d9e29fe7580db29d2a6937b0d1d7eb);
    (0x35bd68e02f041837ee3101a4bdd33e73c661ae57b9fc4996cf9670581d4dc6a0, 0x7698b205f77075073bd76cabc955d08f01a9ea29e58dbbd266d915d9e59dd908, 0x4caab2417679ebce295f68962868db34588d107e2f24e0d5faf076844e8f4a6b, -0x19c0ab95d4be4d49afa7de215c1c33a9a97fd3cd1141e88278133b70693e5cbc0, 0xb47f990d97408988eb0536898727551ed58fa8fde1c381f5eb604ae922128a8, 0x13358df668d291842707d3607c3c91126145e876e482c693b782b0f59e4a366a);
    (0x1abee3c513797c2d6e7b5e3d41b702e77b0c34ee8016e074be22f950d574399, 0x591c033304bc9bc31e85746283419e0fadc846909bba6a346c9cd0a9b1b28285, 0x7a7406816d2cbbb348a6397a45bd15464e0368f3cd4fa9044b62e1a9b9f11c25, 0x542d1d1757448c2de58bba245c0ad3cc88dbb6d855deb41b13f5d2c0442ad, 0x2cb549aeb24adcdfa8e003484db30c4bf6c206be0f813079f9e8481ff9774, 0x314a6876f6c3a4c53a06f1ef712f7fe9844a78a4233ee7df39aec1e3886f35);
    (0xbc920a16519994613058f716e8e66c2bcac0445f77b875106c5eb6ca66af0567, 0xb1581b4f6995db0d9c996e99addc8560b24b02c9e489e5ed480aad7c858ab688, 0x610cbaeb759d83664d110ae3e2e8341a837a13942df48cd64737744d00432d89, 0x5758a7ad690290b756aba8763e501267b28c7c957b7f372e8971372f684b2575, 0x8ae6d22049b4656e1ddd74e6f190f3561ecf173367090f4105bf313141e2a751, -0x40fe7774a47c2f7196776abd85ee2e424a936693454dc4c6d856e60b2c09a08d);
    (0x71d12f1f8648f4f4270d87a1057ae06b8b6fe0798d6296d39e993f6c6d8dac, 0x3b25b5d836dba1666d5e2c7291313275f796db1dbd1ef8e8a7c048d8ec8f744b, 0x56a57836baab0269834ca5d597aa55c73f939a35d46976023e7aa25441a982ec, -0x1703a906c44e5270e223d45318dee37211b9ab1dcfaea2e7436c235d0a3bc99d8, 0x329a5687ceb24290172f2486556fdaa8f1769d944d3078232b22d21e12db, 0x348cd3b0426fd99ce35361a5ac9c27b2bec88a49f69bd57d89a473e8b7da29);
    (0x7dff86e384f3d8fcd977ed7e1de2e1ed66bde7b2fc2013333c8dcc8cd20a3b96, 0xfbb44e35e1dcbb88708f00636dbc9d4d75db73667f35114125f3b036b7639105, 0x23861f0472cd6968c16ac56132ffaf5d803ae205698c21504eb1c634901384c1, 0x2c4b5a3afbc16e4dca91c65367cbfdc448920425e04ad9b1083f7c47249ccd6b, 0x3e0388c8302bf91588c03ef5e9f27ee09c04f66948f15ba634e35493f4257307, -0x5ec5d3e547fff38e46adfb09d01f5606139d3eb91eea87b7af1f7963f96248a7);
    (0x1f14ea98aee4edfd74ae74cc5dd8a8933aaaea3572a57abc54b2284c0ab72e52, 0xcd961e162729804f624904c47d99a735d86a87680fdecf7c7c26a3b479f64ad, 0x30a4e7a9c527389734af22eac0d0bff586d74af0e1cf31cd128b4dde954ef72a, -0x2ddd0e77fb8b1837791dfbee2c2b9e9cd51f7c2c465c5bdc591f400540df69709, 0x3c61286793240333c4672128eadb36e3a896708e9c23a94572157d7b7b19903, 0x1d00069b4337c2e36f7318d8826556dd31560f6b4f9b31fe2ec7d1fb6ed3a1cb);
    (0x7ab2adcc83dbbe40f5e1fdad01c38718a621413c89322089cb45c01cbff5e8d1, 0xe9fc8b54ee846c57c05abfecbad31a43ffcd803f9145ba0a7364ac2c802b1552, 0xa9406e739be5b0623dd1f5e36d36619296f84ffe3976e0066fcda8f6563f24d, 0x2cb1c6dfedc7d85fef8aa7ea178bbbe4b0828c508d6092901a2cd9861bfefe77, 0x3aceca5d1412dc83e5f6f93e877b6886d85a7536a97987e77f4bdcd4d0c46d1b, -0x69fd1a555006d0f38d198072cbeae17a1ffa742ac2d36ace193bce8d91b6b394);
    (0x786a831a776152a8be5351493927752c2ebac79d0687c31799a0f3e17bc9d323, 0xb6ee810572386507507dceabf86455144d11c7e428d18fdc5c83727c9b76fc9c, 0xdb165ef92696854c3c4c141bfca40225b3bb56299188e931f5a38982505c7811, -0x34cbd47af2c6b11577443881ff077d04ad041c9861c1dbb650c254152a4c0977, 0x38a40739a4fa3300b834d61c83d7ffc1d9e231f1d44c2394605494eec9d9172d, 0x1803d2cafdafc32f44937d95233f89b933332f6c96732508e38cfa3230c71abc);
    (0xc7e1228c273c0c639f33c0d2251d66e2782c1ea911bb51e09cc32a75bdf66f80, 0x6f1a241f25eb4e4c9954d596ef032c8c69f0d2c3ecc3b6a2a6d5910796db4274, 0xec292fd75102a2c7d1ed07b90a2541b6098907acb2abdea103aafb01e9e294bb, -0x3209d8db8fdfaa002c0ef7f78d40eda4cb0a21076a91a71bf5f6df4f1197b8d0, 0x9c0fc9b3a405d9f78b9babdbb0b98e0b215509f807629e569247d82931dec7ec, 0x38153f8e333493e6d968d3588d5f71f57df3de4b0417da51b8b1ce79ffff030c);
    (0xfd0267265eb02959b1233de199a721b1a0f1071a29dc37fb648a83f730ef8439, 0x5bc77ad78674909125ad48c533c908a0bcbd3663f878071715d37ed56cca9823, 0x76e14648e76ebf0fb6228526481113d0d3e7bb69b68d17135090a10d337f9248, 0xa846f2ae83b4c7eeb7bb539e17349654b9905fdcfeecd341ca965c2107dd6a9, 0xfa0dbfe79d51926dee1eb79e9393f3e46b8ce918a4f8218f6ed9401b5d2bbb1e, 0x1318dfba42ae3055debd709711d6fe0189265457b88699452c5c65a9b72587da);
    (0xbc66942e44bc3bbc18dbce2f04d7ce01d5250a83e75cb4a91556bae0f3dc4293, 0x16ff1a6441b78b943dad76bc9235dc7d3fb734ed2ed84f2d0b02aec09081c550, 0x5932540255bda7bc32b21339bab2aeeb3609e20a24a9df70cc65d27049655ed4, 0x4c43de0e393f058c8b311b849463512f25263514058b61df56c4de97d154f6bb, 0x8aa6d2be5f98c592499224782962cf13c4309f26e7a76d593027caf3db8a1e9d, 0x329eb67b5aa3f83f82f55739ae8e90a7ded004c8bb743e73b6f16e6778350883);
    (0x847bf77a2bc3c017a2a645b9bd2116dbaa5c9d1dd1c1822f7a2449c323ec7fe8, 0xaed1883e4116f6d66155a486a4ebe18eb0c6301598ba2345e3cef6f02638a9db, 0x52a1a5a31f8b3c8801546764f34cf0c9dae12b900d352fc0f5b73c9dac211f71, 0x331a749d0a4356aa375682edb42667a82f80409f19a260721267a000bd097f64, 0x4490133dbbc4e6f4712dce489155d83f44b82088a1c578d4b1cf7cb7f6617c13, -0x4e920583aba5051888d37777d34061cd414567e4cae3140b3b6ccd9602579253);
    (0x33e744a6d43ecbd2329a2648951fd3e7f6cc47f2be8d86df9cd63ac66afc4297, 0x606f037869e656e6e89b81fd1f377ee5794df2631d024ed097522aba1f406fa1, 0x395db8a0a57c4f6d569ad9d904c020d51649e90b278c9a5ebc605565b09260c3, -0x144a2ce139e50f618985c4c9db8d94fd6bb2c5a04a29e49aa18f707ef8b7af2d3, 0xa85f647700d1c02e330cde9068ede23709247038ddb7131d0d6ae010614b966, 0xfe4705e78875267f3dcf542c667b922692e0872ab344797900aaf83a551899e);
    (0x927d5289688f792a38e12f3cae85395fe6aa1278c4ca8ee0dac350a0f212088d, 0xd5c8fabeaf67936acfc2dfc81efefa3d85a65e87abb2c5574665365b80d8b154, 0x2f570265b80837d112073695759da035191f7ac3ff2077343214c591ec4ac364, 0xe7baa661bd958f57150abd84402c44d52cae77c92e9e1f881153432490e56ca, 0x53d32f7e7010130d7a000445605544fb36df76a776821e639d816591313e59a4, -0x4326c1c99f3bccbceafaf850cbf2b277e4373e546f2dc8eb643ddd2e0ef28aa2);
    (0xc73f10ae036ba3605e11a02e6fd7e581c03a78e400679382b4a74aa6d9eb8468, 0x27ed7f23b582f5e08ec5374f6c34a7e799791454dad749de8759846efef42f2d, 0x9dbcbb1c000308e5992c6855306b56daf686f4160341228368eb7fe2499d4bb4, -0x1cde79465a0430fff19e57bbd5eb8b3a4a9253df45f595ea39aecd21ec7b62190, 0x9b131b77c00d3db05677898d59bf28bbd4187f171120f7905c91b6c74cdc6c85, 0x8750716cc89e94d10d5f9bc9e0e7f71367243240c56f1891a4af7f7a0b49ef40);
    (0xe34b93c34e50dac0370cb98f70afce0c431a5da3e181589197c3607d95c9ee2f, 0x579788b6273f682600e07365902058c3a9f465ee2408579540d2dd0322710b1d, 0x5428d8b5b60aeb1353194485b7dd6400969ebad8b38302a7e5c38f6dfb3ec78d, 0x1056b2b4c1da5f25bf4e3f597d1c3ee8594a0af30feff97c37e9cedc4224a7b33, 0xc9cf1e5c469d2842509c316c2afb5177b9ecba24433513f9e5e2b6ce9a35b2f6, -0x2a51d8d0a95aaa2d19083ea5eee0e99aa847542834b49e59463e53e5bc98d77f);
    (0x61bf966b191a56eec27bbdc22fb1ce7fd0f6f34656bcbd07b78d05c644b7907c, 0xcb456be4278fb5dc4b092d63f99179ac12b89431c7ffcd8c1e7e11158ac9311f, 0xad1c1fc1a8120c1ee61c66e02b2c557d40707778f57242398e1ee404d577be77, 0xd0a4919a02e6d937994f24939e772ce45cbda0955ebb57f09676cc272c460e7, 0x2552bf5ef5371967840299a24db90f9309cadb8da7e2629e3c9376498fdaa084, -0x2c2b75c9359373e61ac4469320adbc7d898416f3e0f3ba582b34ff1a13bef5c4);
    (0xec50694b4e582a84d570c5ee6dd7df0a8813c7514b48f6bab0035302c32ba4a7, 0x4cf987893a1519474175a7e9153027bd0bb64bfbb317b761657da57315345895, 0xc93c60d319aec163039a9af8da631cfe452e72f2444004eff229b84ebe80d1a, -0xa49ce945b6351dbb8be3cc5684cb8335be1d3361030e26457fa9aaac9d107ccf, 0xda245b64d2d261eacf110c9d166f8b1170fb1cf2d51e49a11d5cbbeb29683a42, 0x7495a22d76e30f59600e6d4bb4d005a0b238874e9a0aabd44d9c1a94fd6f329b);
    (0x46f212f8f9dbab5a35508acbce7252659bfbfd350445e3e06311712748943e56, 0xcd76aaed5a137c2c2f5836de80e3eb507286861518b81d67855c240a45354426, 0xe58a1368a747018510237f9154bd2b0b991118f9bfde1aac103d8e22766321e5, 0xc682a6358d70dec051ccaf6912051864d100eb8d558f899bf69ae80c758abdc, 0x13a9474808c47a4d3d4696489889f1ec7bf4917d5243d402350e46b4ed1dcf3f, -0x239bb77e9885193d7e032e3c9b880b2758596df7f139867d4a159c997816255b);
    (0x1e6bccb86f54f45d6894d32deceaa59a4c533b3c87283645a399c857ae5c3dcf, 0xc997b182f9942b29985b7a5daf4686ffef9569e11961f37e8cdd8539fa87b322, 0xe63585fd4d3afad696364cde2e541b60a726ff89ebbdd0f6bd3684e9569259b7, -0x1b828212ee7d5c32cc5a19a8647b0695475e55619c5d4abf1a04b132a927b874a, 0x39d715ffffb7099ca973af519abb0ce651c799827be10fc5655b6428504417d, 0x75c2852f784110dfe4b6d9cc1b5aacc5eb7f17931e4dad628aee9dc7b92760);
    (0x9023ce1201310a35577ea1d86df3811a4d7e574eeb7e001d7f713024f72b95ae, 0x78f7c16ac80f50d6a866b58088491a5ce771cf0035c84935c1f2360427efb5f4, 0xa31f15fe8e0e7a704c5f7a8c98a6d7ebb2667010caaeea23a65fbc1fbff9f81a, -0xd9020fe98f15d3f97e34b69c40e2d0c7a5eb67bb61a5e14280f8c00267fb9bb8, 0x51284cd640247a13e459167d2aa9c6e721150a41e2794764159d7ccccaff7bb4, 0x2d653dd1cdfbeb48fc3576a1d7f21cb011678468eefaa1ecaf4f435488aae1fd);
    (0x315dfb5f13b84d4005dd713039f54badc65b7c35370e61998cbff0323889468e, 0x51a585372c80414b03df2dc76b24b42795b4cfceb6579ae23b462e3df972900e, 0xbc27b3465a00a7cf2b8de5bd5330c9f4fb1dabcff5babbcf271e77ae56a91548, -0x6c91f3f730920b52601e5be51d94b848cbe09f543cf7284823ac09496dbe82a8, 0x9851cbaff747575ae8cc963edbf774d8b85ccc0dc3266273455aa14e5f25892, 0x7952d01fb183f0f09c20392d1b2c2d060cec1614174d3236d5361f9daeb806e);
    (0x9f8f501b21bb14448047a8647c2c666ce2e75f16b50d9f53f02f2cd858a52dc1, 0x8e973f0c163eb0b7fd38bd6c1cd62b5e3f36dead0ae584c5ee49172abb8ba8e, 0x9cc5aec3b18bfa38f36519278b6d1bdcb21a392f44a595f755f7b03fd52b5f49, 0x18fde65d75f6dbcdda5c07e4d83fb6fb78e4b67ea81d69e7bb318d9bf04f1f86, 0x637355bc4b470a22ca732dcb119edc1d245c4fe4d8595463a8dc4acb595c4743, 0x2d55868addada7a8a16e4e92514a7bcb9dec5975e0fe35242ab3ec8b8c865741);
    (0xb72ce3d1d940118df0eb925a3790018a53f64ad146de86c8783925d437be1d0b, 0x7bd639eb0bfa6a93c6ec891ba0f41085d23e841118ecf34ab961d428053a0534, 0x41af3a434fb53b6491415bed6e5da333e8416e5942688da10d2c7a97f0a8a2e0, 0xdf6b566d8d5dc6a8422743ad6f6f1b991cdfe97f0b1db58711ab181c40875926, 0x831135951f7a1a6b0957ad07db3fee25166c78f395ea728a41a787225481b727, -0x523b687e1ab86f66c7b5a6d65ccf845d8d0c1ff4623d1dbf0c7d983926f475a5);
    (0xe7dbab3dca790d35d3a80da24cd2c9249bcfc3f60d62532ebc0498848031811c, 0xd6d04c110caa6f18852213ff991b407d4e7761c78c057202ce555e808cbf2bc3, 0x1104259cacb36c1faaf3b77c4c49de1128553b6da909adf6b4d3034539d91dec, -0x1e54b8ecd5aa34376e72a127a58fca140167bb8d9c03828c029ea1ef22a2198, 0xd1fe2b87f1aa7c5b938ae0a20a36f6cfd39e2735b686cd0ca20f1ee40084e04f, -0x5265b728d0cb7761c69183642df2f0408e8ce08c5ae2e89ede8a80699f956390);
    (0x7f500f0d0bbae69e956afc95e4371232e22786502c5adb2ca44f5a23448afbcb, 0xf003139bf529f929e64328502cfe07a3d79227ad3b8a35b0ccd805e8adeda1bb, 0xf6c81e1f3fd495e6ce1b4accb8985bc82485fa115612cee3635ea37490c1fe7a, -0x20bd5f80f6cc99e8fff946cd85ed877649bab69ae27cc619729195f3f581e6a1d, 0x3f5087f85aad4dab93e9235ddb9e26566e79910f32ed5d98d90fd428fb6a5bc8, -0xc881257872cc7323a6c3d3b8c42509f5acd8faa1d3a2849c33428caf4b34752);
    (0x8b80c0023cd11614c9f977767b897fa96069e78b1ca0683f66fd0abfe38d10d2, 0xb4cf163a27c92f8e1f7c737c9bb8f9210283861304a791dcc86c22d75d13cb4a, 0x7b499b572b42a295feb14a70dd4f1001a810b1d33b180ef5632e09a332a77f96, -0x4072c509d5685e8d7225ce71f678d8eadb5457b8e4e4fe66d4181da28077d74c, 0x4c051143004b3a4f4af5159a4a40bf056df25d676a92d4daf6f8f58b6fee9609, 0x204300fa4dec1c98a44ec189262efff1a79cb11ff980c05057e8b5a5b4eefcfe);
    (0xfb4109a705720df54a680edaf71126486816aba1cd81bbec3c81244e0b8d0e72, 0x38e77b626b946160d17cadb75e397f72967653534ad4f3cae3824c390f9e5907, 0x6ed7ffac3301ea7a4e89e01ad9967cb6842ca09421b7abb0234e99097cd7484d, -0x8d1aa10a567bc056e146b3c05174a97ac311f8e9e1c3a639255be36da90c15ac, 0xf69899736bdb96a4365ef297549d08acd4ec0fb811ab9e5f30e3b21229f1b027, 0x799b8f4bd178e1d30cf2f8bfe33509f1f022cd91a6074a1a5303efd392762f7d);
    (0xc359e2fb9a81662234af346b77bda510868c320026bc4f0e2df214589bc0491b, 0xbf7a9e6fac06559bc8eaf504c341747d0c3616ccde81d3493652d6dec3f46a62, 0x28c1e36f335356be6ceb43c0497225ad8d583d93b87e77e49565a0acbb21d783, 0x317a794bf2b85e243d1b31177205ee65aaff80404cbc5f44db8bc5767bc8a020, 0x95120f5ae993c3a5ef5e281011dddfad5f500a81e70fff35c9634274ac8a21a8, -0x66b1542c701fce74d9f57cf03ba701341a5a189e106a21cde625a3e54faef7e7);
    (0x41cb6d478c573193c64da46b438032ac8226a267e1dad64a5e488e096ee85f92, 0xa57be4d8e1a969fd5a57e7c52e48d7dce4126152c3a3040bceee1227cf21d3e, 0xcae59678df367ad0b0d55fc4a09676241447eb16e77e55ec793250ab4d810f7d, -0x198b55da90739f294512683fbbcd7f1a5a01cf6ae2e2d80e3d77c18b687fc0ce0, 0x10e8ef24d362daf71094bf63b4684dd8b66537bb5ff1569898db81c40b511c5e, 0x2e8dcae2de0e0a23277405b1b75eeaac4ba652867eb9667a9a93557785f9baf8);
    (0x77a5bded94b38bd60cb135c4c3efd09c5041286b619d63233d634ca19a44e15e, 0xc4300a261f05ab67f07b6c07a68a1c47be2b8e235c365da9008ed49343a88611, 0x9d7ca0faa8068175b569c76a0c3807295e1c3d6c0c2fa0a885442a1293ecb278, 0x3410d7ff8ddd6087d826960bae9ba80a8b112743f2642751eeb80a82bcfb21ff, 0x37eb81e14169458109042d19bfb469757d2d0b850e1e1fe457642e5429fd2df3, -0x56dbdd8bb7232c4332d6b99dde69160d291da682a91dcf989cf6730c1d5cddc1);
    (0x3b0c7a174f05ef2319a78d2e4cb0cc89e78d058217b73e80235296d0a16aab5a, 0xc71a307711dd385bc6de3038b51cb161a2c31332d4e0b794bf4527fa491be3cd, 0x75d1f2387f80ff9819e5605bba071baf63e343429171b5a2dd3b57d7f6e84288, -0x17a65fd9072992427a33752e3b50e4f9186257f2e6ffd45265fed89e3ebb4b56d, 0xd9ec0e26ad65e398c80b945c2f326a9ff8439793b83cc672c53b0c67f69e95b, -0xac1b324df567b612f98681a99583e742d57c2d35abfc5eb2f7c169b0321668);
    (0xb8d9c070440acf8fad228ce7b5c2a93956721ce574a8cedd11599c1fcb370111, 0x6bc10e730e2aaef87003958e39a056ec9a9dace9525968863f3cf6b35c3fcdeb, 0x5b72936865fb63204c39a34b3f255d851fc9a878e8ea31329ab13f2dcf7e4cba, -0x12666f2d4e0ab80f86077da9ebd55d2d58f6b617fbc9455cc456ab71228c61485, 0x8579bdd930cb7bfe3d580f447b2e5ed733dc21da1632b061ed59209a0ae09924, 0x41f5c3aba0d8e2321cfebbdf6d989f25f4ddb76321ba160566eba6ece83a3540);
    (0xb576639f2258e6fb2a13800fe8fb23e5de5d7464bb5fe1a6e5cec2f5d03b957b, 0x905e11df6675328328404011c6b955b951e2d32923ce437ace3d37e0348e9eb, 0xf1f899b10d7373d404624d76f770caa820e6abbc00606986c9422f576a332f97, 0x9ea9778ae6a54017af67e5976ebffc57ede94241366bb7af2627850d814c5af, 0x80a09f9f0409d8108abb47d43ba5abb0a22a85cd96e0da0ab6530c3c49322f45, 0x45fbffbfd10e4972c73156ad79b26e99d6d867519a070ad0e4b577532e70c481);
    (0x719c31a644b1bf943350f3723bfe81af0943daaf932ddd29f486405bd015c863, 0x5cb791771b1a83837ebc13b95c2af2135ea5ccfe01fd89dba0fc137a90eef1c3, 0x8ff1ec552249965ea5c8d50b9686aa157412a55a9987c979c0495d3eb6938966, 0xd5d07ea11363c7bd527aef08d8b9df45c8e341e668b15f1f766ebcab81902191, 0x326b432154e9b60b86361a9c4bedb16b4e33d9558b2fa50218ea11d0e9005e50, -0x25247f5a2df42eb27e2f51cb891ee84d4cec3a2a8ac9b720bd6e09cde449ac8b);
    (0x5da670816b98538b5f0421ed5e31bb810c8b5212a127f76be3b8bcb4b44c3b74, 0xf565b4e6cad36ee496895a4a08b18f180d3a154c75b4e5fa00ce56a288faf54a, 0x1fbc1415ab844144e446cf730f767025d8275ca125e750e8d031b2812b5da14b, 0x493956cdfa84ba1ccbef476f82580a8e95e16c6a3702d54c58b4dcf8ec6e63b, 0x224259f42175b5d2819f1015a85223211707a33cd89e9ecda5ec187fd87bb840, -0x37da86e3ecae799ba73c41fad60803fb613c5e2cb87699f2aa671a90b7f034b3);
    (0x160bdd7ef7c8a9479b8f47d6f7e699f4c21c70f07ea2f42fb33e0ae122ba281a, 0xfe59c36d9dcbfd95e33a2db2bc4d8c06653e553f2a4daf0d3ee6d11956d01cce, 0x2aa240e04103175a1313d377d74f6bbf4c102201c596422e9cadbd2299d6544f, -0xaa61bea0d22bd9dd028a60b316939eec644b2472f470eff8c49ca76974e5b4f, 0x1e60a9e9b243f20288517acc029fbd360528911b6212bdca7708c453175d54c, -0xc5637b57407608d5553c6692e12012823a0ef96efa1edd7e7699f1f35d4c9e);
    (0x4d6ad3b806ca37ca4537f6603a4cfe152fb446182c6995f3a082cb7c9bb4b358, 0xdef4177700465f374630f200a2dddb319a4bf086a9bb0b37bb222513cf512d6a, 0xa13d978d56738eb07ab37e79a9cde7a9cb34c30a51998e97d7b5af20bc7c320b, -0x2dc598deb92567b4ec4515a74c7236f6f734027cde364610862261ccb092df3c4, 0x17696ff0b7942480fbfab7c53df3c8768f3f1beb0daa59957846bd864366dbe6, 0x97eaec9c023762580ecfa34ddfe0c0922129f54ee1dd14dad84673bc72d10da);
    (0x19a6b5d3d4c6cc9af33724017edfa4bdcb33c5e600375acd1da7656534113e62, 0x1cc87cd22676129f647fc92ed67adcdbf41627c4bc2dbbc7e5c5d9212d73792e, 0x946f0a1e01ac2b8e38c82265cc05f14a04c09c729648fe560bd6b75de5d8b7d6, -0x22634bbc74e5eb6f881fb9ac254d59d42f808a2528f2ba9c5bf1f27215f1df8c0, 0x291fc13af6bfff12a567125a8928e6daeafaf0955d8d390bd8ebc269b06841e, 0x1374b449dfd47d66b22dbb5c3ce8f2467d7233cc94fc4a944227b2655a9d2b99);
    (0xc7a3aa869ed87196eae7af037a291d6e2923f954419abffb1fb477d18f227f11, 0x127d217f26d3d7c57858d371e42adc1a711f04b761b65d805928b92006b519d6, 0x1a40e8c143470403aa168687380103349a34b9d227869f55e7081347cb5b10d0, 0x487e972550f2db94b481cc7a94fd03971fdf9a0c9d678fc9f663621c2c291258, 0x9bafdbbfe3f9d9fb6b669250105e49578496dca81c2dffd29f004414e278698b, 0x80728d41f0a01c2060a53e74caee17bbbcc63de8a80a9e83ea5e271dc10a86e);
    (0x7494cc6f7822f7f85504f524e977b1b4e2fc680e49c97aa0e074ae37fceb5a54, 0x201c0bb680bca59fbb15c8c95dd93a306916ab5cf2b3e35e5a44e87dd25b7a67, 0x33750a771702793473a8a0b95de533d5c234be795e2367707e2dc14d3bf9d8b4, 0x13e7d64bc044d1b8beb3199c4dfc359d35fe45212427e46ce7d1564fbb94186c, 0x35172fc209047128e61669fe251e35a2bf724e1590b9a719d57fb05bce5b1a13, -0x633ece10dad7b9a005ac94e723381947eb1d096806d47168e5ab153c51de068);
    (0x3e7c3e9339eeab4e1c3d2ba9724c44f2c2ba24286202a16080efe6b337c52608, 0xc693fd3a41c51c242069fff09d42fa03da4ab2b33d7137d6922bb80d9f43eee, 0x11edaa3dfefafe9d05c507c71f8a66cd05737ee5aa131bb16e1b2b9f9aeb6309, 0x15e0d28964efd676e3a3a2ae1e3f27226ea599f133ea090637eb3328d7dfcfbc, 0xf406a9bfdfb5eeaf987b4962f5b13fc2b2a799721c41cd526c6b269d3eb621d, 0x4cedccc54d2e37947d7d63301ec0d6cfe2e3931e00dddaa41e21a07730700e5);
    (0x89bd9a1339e276616e86e67d261de668e2e1d2a53212ccb581d8242e8816c663, 0x92409fdc5427b65dcc3e2d1c1dd996a17630b01119f91b0a17af741ee63f9e64, 0xd7971f1ab6b8dbd79ca07d9cbf7a9ff4208f5e5b41b3961a25cd238bc492a515, 0x117cd2f493ed2b355024fe5c477a1a4295f3b3882f3e6149005109b9d37440f6, 0x4a1c7b557112fe2d2f4b025f9ae840fe19b9f5f8d70d3dc581067a2b5ad95347, -0x480362f429a4c6355cb1389ec1892f22a9048c037820838ad7dd857c9bd2c540);
    (0xa594535dd456116ed33d27ab80763c6ef41768c354a980e19e90682aecb0db56, 0x6a446738a2b4b7e2010479ce4129c7e517e7798f50f5f923a016862d214502a0, 0x567d34296233c8e2d4ae44c2c28828c73549e931f8dcb89300aece1e0ae16b1b, -0xfda223d8966b70942b058b1ba287d298b5e35188c9fbaab3feb92ff015ed4c5, 0x6b188967735a7010ca66452759901957f22722fc90066ff4a790edf071c80238, 0x19dcbb57ae29aadc4de8c042e5f950d316b6b13303b82fc9ad058bb6a4f058d8);
    (0x4b8486e0c1a0b7469d7a0307b5df95ac3d9ca1d5d58f0de2ddf4c815a510a366, 0xec7d859f3c86b54610c7b4a6a9ca22b9f64640e6dca75d748d5cf51599872e79, 0x359c357ed7ed3db367e5dcf0574da89323c1fd9d3a5b7dab65f4c129ad614943, -0x514f3e74b8948de51d56581af3b4f5c1157185373c4a4c253ac9f8acd60e4c44, 0x1646eba3104be9280caa45470a22c9ddf77b958a3e192eb5b1e7faa3c24dd405, -0x266a25f7f65af4a695229e67b481c8e527f3a28e4d762c51ae91bc4d88f14c6c);
    (0x768cbb253b1346a508436544f67c31af0b29b4e6150c52c323bff187e30bec2a, 0x5cc0d6b9a5fa7a9cfa1ce687d5c51061e192325c3b5bd51cc2f295a6151241fc, 0xa713fd536bab613ef34793b2fd21b43185d6183107d0b3547ee501cb5cb7cfd1, -0x35232cc030358e63226307ce4a50f33783c24425b3e1e33e4968854451fb0ad1, 0x36e609e38bfdcbedb28894dcd1e31143ba9b1e644f59bb896c3cc3fd0115c5d9, 0x428ffce1342542db5bd8da30c9578d306166c1d4c51b916332b2b6eeb29365f2);
    (0xcc4ef9e89bf4ad031d1c6be636260c579d6525ca161aec8a9b7a32c2309d2032, 0xff7c8d4ff3a4b36cb1745cec2fcff1ecd3c56bb4e5b68667cd7e2fd383c72b50, 0x8b6bdaf670edfafbf1b4a67343b28cf2674909addc88e3832d84fa77d0f6716d, 0xa5dd6f5727680adaa48ecd40d5a40e6ca13a7749220d40309144ef84a6cfd8cc, 0xa30df6a7f6434f936756e0eabc1c27abe16e58816681ef70559b75f8497a8244, -0x81dfc98dd9882955a6493640eabe2bb974098b03f955f76d84f440de0d8e9f3a);
    (0x46f23446f804eb2d2bb5fe0ab5434118745cd6b9d88acf22311267be72edc968, 0x3c67dab1a9f9755b67177913f569fdec816a48428c7951f1733ebb6bd3b1a8e4, 0x33bfdff15b2675c36a5318da3fe2e66e8ef77ac367f00684bf1408e668f164a6, -0x2afa54dc192c01977e958f7f8eba34c207b82c297dbe27c04a012a1e46033a290, 0x13a959bdb07c8257e7d2a937b440b25c1a79e318614bb197a633ecab7acf9604, 0x36103a3e6ab741aae1dd156c25e2ffa5eb29f3e6f628afb97decf8f9bb9a46c3);
    (0x27fd23c5f7f10c9c02b5b924e42aaad2707bdd49ee2fc1f86fcc96d7107698ea, 0xe4cd8eb5a9086ae521f3cbccc87c90018b8da33f5af3b3575a8821e333a84922, 0xb5493a7c95008a315b5b26479bdc96b3cbe635bd6587d4982dec286461ee59e7, -0x1a97bbfc4ac812d05061a94259505575a6d111c419fd0c131d26948ed63993c8, 0x63f1b360bd73f2de7c3d3c0d855ca4cb534e51898c481c037c43daf28b01426, -0x1a4e0277a4c71cdcadb6c75c108b395d5a8bc12197b9202be05e402b6eebd117);
    (0xd27398989f59b134d3c6d2d7594e318607bb6ea41237245977dbb8a34e2ccf33, 0x15fca340e71047e21fef7f544eb16df9a807a41593edb5b1df0aaf36fefc4698, 0xd164006652db1f2302a9308a03e119461cad6be7ea4524a47ae73bcd72a52c9, -0x13b6c85e64c45165133655ce4d07d73e6fb42bf81671e65431ed9eb417e60381e, 0xad01da8cd983e988010a2a4ea2eef12d0cf471197c47c4ce935608b14eb94543, 0xaa04c446e52607b73282ee78a1d3b67b170f6cb45f5db9fbbc367c0774e7e892);
    (0xe8683175023a82a7ac0c2b043e457b26d54c29dac09e39b31871b43cd9ef70da, 0x99d95061dd6e7a139dd16afbd031fad61e4aef89a772fe223ad90275824dc985, 0x2b9de4c51d21c67c1885048260ae53b999b187fe93a65eb1fd7d835dcdef9f83, 0x5a9032ed410c594c783568cb08d5698be0002241c921d248925eefd4ebef7fbf, 0xd2fd040c4ca9dcaf7f966c64a540581fcce4df769a74de47397ebe84ee35d641, -0x77b5a805b6cdbf9fc7bb0f39229458564e9e1f23dcd6f223974460332e4fa442);
    (0x95e5b6f5273a4a2f49c06031e37adc01f4761ef28c9ec695d5a72b67b1b40105, 0xc7eb3363f52bfa7803bc30255b0eb4844b19b60ec2ec21694011dc3ef45cc67b, 0x6b9cb1ab3a0a71b3f340982a98c22a98f09fa2c6ab94465388e20c3e18e1512b, -0xe24c5c8a4610ba588f5b99deb326be40db5682dbaede67cb0701070376db4a63, 0x57c5351a3503872ec183ed66fa7274b22776b2a54e1bee84bb94870d3adb8fac, -0x1af9c00d1e417d1c290850810cd7689127c5339aa3e67a715c2748c0f03e1544);
    (0x5948e7d88df4942fb6cb2e28582508c430f2cc0ec000ac49504786668fab711e, 0xc8a2c0128a9d43276c93b3a9f03e2691c08b1359cffb2bfe0d806486d4ce8a67, 0x56e089119ad7a56cb7647d277f0025a059165a497f3a1656bfaed5ae7596952e, -0x1894e475e89eb72f4061d2f065d22a558f2e50553b2f8d071820ab0d5e71de179, 0x1f23c5f7ce7c6ffbc6cf99b0883d807ce93527bd6d0f3d0ce1a63e419be1fd89, -0x40042e7e446e213b34ac17994f07b157c1f81319473253995f8804460542cf);
    (0xbf294124d05ef998310d07c94c4a7b3a158b04ecfd27ad75f616d9c775f726c, 0xc8fbfb5ace81c83301d2020f1b3492c2a2f415267d5295bcf888f9372761eb2b, 0x4463bb970484639fe70f62785e42cb4d03beee17388fde774dabb3b24837437f, -0x3ae9157ac4b3b1f791ee89ec0d9120ff405806067327060fce7fb351192c382, 0x8ebe95dadd4c2df88b011c54d6c29935e218613114f9f6ed62e7429041fe7a, -0x42a19c1e1caf89008739d53efa6f29ae2a95fa45e7157d80c4e78d5c12a33);
    (0xf1d5c950846feccc416ab363e5dda4130fcc66949adbd18f49c32192a91ab943, 0xfe5a6216cb6d4f11f20498b1b30ee1396fb1281dab7ac898ad091eab2ff936f8, 0xc0c1c2dcc2ad51ce760ef52a0d64bd72598333fe6ea08b1eb5e44047085e69e2, -0x1582a1196171af392e022855410e53f4b851ab8b15d43c561944a3bfed3df189f, 0xe474379237a6a7636b601cd4e30ace4044d6f8000f6dee41d2534c08463103b5, -0x326a703a5b48e088239b275c632c2d256bb90aa859db807b84d786ae28a1fd78);
    (0x16aec2b8ddbe023d587bea0232267bd5568993f77db3403b3f2b148706a9ab03, 0xdddc5030e17295215ad91a8016295dc37765f8a2e9c783e2022e4b3e37bc7783, 0xab7733b3372138852c939d7b0668d013bd0ede0d17ab181c5471fc936888dfaf, -0x2d3fdf58c268267206f038e8d28fc1af38d3791bcc965e2d3a1d9d08b526eeccc, 0x20280c50d86cc41133363daba40cecfcb067fe776ec7d850c009981171d794a, 0x2e103f0ecb2a042c4acae8834f7008f4c81f8dad2e18aa922f6aee9b3b40792);
    (0xc0ab345c11f4833701c870b117187a6ecd0ba5dda206780bdd598d4b60491108, 0x29c34c1b6634660ea8bcb353e6006e43208efd25daacc624cf44e4270e4fa422, 0xdb10a1c3aa8f2ce1f0f30a3f019490f3900cb17b880632c775f42e10ac705d3d, -0x4b5963ba9cc3cf820ec260490a28cd3bd30db24f1d126f4ff487b2e88be4796f, 0x9101410918a449e20c78160a976bdfb78d0a87c4e1a38b716dd917d43e88136d, 0x878b349bb13b7805345b902a0b7d7818605a208933dec825edfb0c8b15fc8fa4);
    (0xf567901582fb0693302e8835ae31f120ab4062d511a564dab1891cbeb44b9d7, 0x8c0a114e09d781eef15ec7a7de96441d1157adf0f724cf006dc0a3bf60324d05, 0xae65ebf7f2c39ae2ba43d017ec953154332a49b993d4c1780f81ee553f89e0ac, 0x5cf8720361c5b0e21901c64ec0d2459c96d3213b51dd6c656db9168dd13d936, 0xeb3f63ae6f1c15be2c426955fd3778f77e9c172da8b6c1d42a121e73afbd38, -0x5e357c82defde78e42509be4d096167d4a7665ab17f9c51a78249e62c9d8fd2);
    (0xb61e86d3f8d6a6473d62a7f65c0d0c32a0cd4d202ac79f7ecd999e28b247d27, 0xc72b2e41002db16100ad7c4ecf3f9ef09d01f15a1f44f9e780496d6c16aca39, 0xfa9e49d83bcfefc615e8804ddb502b13e8cb16355159d4451663bf9f137458cb, -0xd64ee1c66c41d812fc4653481f9b347f3bed880b41c3654a1c256dcb39b28c8d, 0x818f6b5946821ec11dc3edc8932126ad6e48b71eb579c1a76c24e5b608d1b2, 0x5ac4d40f493c5e8736a01d06cae7dac66129e70074401d7b82f1852811041f3);
    (0x8afc6268c11aa59222e08ce711f26a05006069af1154fa97c9c1352ba55fb17d, 0x5345b9f6507c5442d2a3c794c05a74cc6939e0afc60171c6c394ba179312770c, 0x969b962c84e0528096413957d54c99ae9f4fb5f244b17360226d756d208ef946, 0x10e4ff371388ceb799088db109dd1dfb3d21e41951f040d9c1996823e6d6ec6c5, 0x4b7512ead44145ad63625bdb2df3737c96e4d04b3a0bd0b1b0b45c7fd2570365, -0x267394c49095469006b76fb9c1e3552538dcd38649f210ccbe8d13fb40d0eb68);
    (0x1790abdfab53ecf6ae816a5a886e1947558186b11a09a737ba74b83cdc31a7ef, 0xf6efce8be4a7e932bac91ecafcca8e554aaee803fae764de5712e1988ccc3d86, 0x3ca2467858d2f517ed206b0aad20e23a172639402a8293d752f5c180dee0e1e8, 0x38a95358c33bbaf20db7e48287a51e62126dd37e87cb0cbaa05166c77f9de5e, 0x22b50a3ffce654cf6512fade4574bd663eddb1fab17213b4e7bf16f1aea09b9, -0xf10c5669ee35e8d99b31685885ef52df6b1c2915a793bf90a12cbb6128fab2c);
    (0x615d5db41ccfb6cf6c1019315940fa9895107df2e2d844255bc406b83984c0bd, 0x8914125e7891c422b12854cb2997893ed9c59692cc42cbac8af29a7ba3d0ff2f, 0x1ea1520ce70b4c0f3fa18ee844c8bbec24cbe419e9f4a33b0857d43dc575d3d9, -0x29c761116e21a6d30190ac3cc37b917bdaacfb60c2f8bc6d6df89c5a000b384e4, 0x2507e30fb4feb31b74c29783e20f3c9eca131d2f57cbd6955445eb4e260f0a12, 0x29c85356b0aea3fff0e4302febd99825a14b97c3b2c86d11cceb7a78490616a6);
    (0xbcae8ccd6ae192c50bb28cde8a5d65342072ab9051343f73ac9893e2bc5e9a95, 0xbf7929a777741e92d606f5d5d89819197e0622eac1fea54190b094826e6d70ae, 0xeac0e802352a7401d3ea60671f312bb00db8d43aa174d54d350a4f11980e21cc, -0xb4d5ee21af4e8c766cdf95ceff0d1a95e0aeb8cb76ca01d65eef037d77ddfde, 0x8b10d5d169a9ebefff764e4cdffa0ce07691a9c8714d8e6acfa9df115e2e3bfc, -0x281753ba5d30d2c8ee44e0b2a139b3b46134f8cffeb9e86a077a5bb962b1ca70);
    (0x9c6328576de6b6c6f7b85bf6062f5095e21d6efcbfe68ea6bb69856cc5bad21e, 0x906c6f5da73707db01e7f3e74a0593d39a5afa87c33a8e074af67b161514c137, 0xaef2e140e9b916355c27869154f6b998e5fd443f5082dd7582ab03e1a67028a8, -0x8ed11a8e1e5123dd7cf953ef504483a4f63a37eccd9cd1467dfccce88b5cfdc4, 0x5f88ff92c7eb9f67d6e8f8e352d57668ffd51dcb1e53ff0ce5ba5b85f2d6d4df, 0x1cbdfadb14126b6f887431441368402edbf37ba95dbbb7e98f5b30c2452a5ee2);
    (0x290ffb24c08f344467f389b738f3713d2448663d72f5f9a7ba9dd10472abe593, 0xb04146c701b6891a0839fde69d80decae7110860e3e2a3549311977cde4bee52, 0x1cc1e1c09e406a996250fdfcc5599dd4611c566da7f9a2f7bd1eacb9baccd62e, -0xbc4eddc6d912ab9365bfa74fb5f84d8793e2a051dc1c25779d190785d670dbed, 0x6961f712a5d866592ec263dab47f92b42f7726162af4657f2721a333ba3d1a7, -0x51b1332bfbebfaa7d4c31d1c0a8f9581576f84c3d8f7447dc2e969693eea059);
    (0x61d0e758e5251f6b2ea8c120c9824d99fa10107dbf0e7841d76cee682461701d, 0xe84549d592b2c1fe97642649e1ff0002a69d98a4587c71ab65874bd736c7776c, 0x7dcd368d1b1ad6f027ed4ad71182fcff1c591e06a48daaa5e89ead27d7456de7, -0x1561399c745d3e0134d7787a38380bd8d1fc776b4ccae06deeb7a64a440e21da0, 0x255ff9ca1f2c0a899cdc2c1128daad39dfad971abeaea64418f6e52d36254917, -0x15673b0a130c4682ab0b5abd5276405e9dbc7ef11693844a7d53d36733d11fa9);
    (0xffdb2d7de0d4f2fdbe3ef40627c370f01831f597bfc75d2bd3fb1eb43290c86a, 0x283a8fd728b5bf3b2107bd4b8b7b76917f0c4b629a8ae5d0eef82fc47506bd47, 0x9d5375f83c180b182ee94d86d1b075ad3845775c06327823361a21c5fade872c, -0x6e76fd7bcc372112b14978b77100c62eb34981cc65e98fce7a7d8c5c4976c1b7, 0xffb66047a35c675d71fcc4e718d9d5dea080fa1b43423d6c3d9831a9cc30e6b7, 0xbfef1a91d8cf5cf66ab3ab26260eeed216c4913ea66aa079e1bf02136892c2f1);
    (0x9c0c98c6ed038341715112cb34d8917d25f6b91f07afb33ab7156e72e2fc5497, 0x811cf7096556dbb7d6054414be720ec6416430536f21cc9a5e0386e56c06e234, 0x6c58842119fb6f6a474cfa4ade37d06b5be0eaaab7268f1ecd5b568085973c5c, 0xacd6245703e9158d85c3f92ec6f1e545f9bc873b07f92886e33d53c9da4fa63b, 0x5f1f5ad11eaf5453b8f9af607dd4161b7cf2556ac87b93345482622428e5c1e1, -0x362e568af1f97b872d03e9b05ce6175f14df6e7694f192b618091b8caaa0a21d);
    (0x69c8e65f408ff024994becdf37920e710786ef0c2d642923082f15e3219c96ce, 0x497e68d0c57b0444d8c615ab43e50549c453165609a71b5eaa74568358ff693a, 0xe751e05553a7222ff056294071826ebb28ac8d687b01e6bbc067c81efa77de64, -0x69cff30a08ec0542389fa80c0e1790f0213df88a707f8b3e97ce09a8f63c1660, 0x2bb66aa2e71a3f58dd8e168fe32567810b945f5d2487b6f3aa8b165cf92c0f7e, 0x16fbae417b729f0d8462a0011db00bcb1191c78f33ad31c0d17bda610dd9f554);
    (0x817b4edd60d9fbaa4e149442b65f0dd175e26f8c13dd897eec70809f5b35ee1f, 0xd680da7df20b62cad4eef13de2f3a83f0c2e05c2c303a70ca3ad09dd0fb129c2, 0xa7029bda3e48466f12affec3368071c34bde95f0bb83b7d25843605ab58aa8a0, 0xaab358b24c3ef48153802843464452f807f1a045de1234fb27995fb80f8a34f4, 0x417d80dffca2678eaab4472d6676e212b45fb93929d4b3d457daff40cf116365, -0x475226e590c10b64e47670c6d45c37313d80bcb2decfddda8b02b3e083baa544);
    (0x4fa1bc5c682c296efa42941c1db0c0154501fee90aea1148b1ce39c742b9684a, 0x11a5c4bd7a6759b7b48a4cd94ebbc188e886e90c33f7f13c5f3b738594cae047, 0x7ff3418010d9df4c813a6aeb9bbf1e8f99c9bf4cb14a7cef22806626a513eb96, -0x1cda9c56eac0685bd66b112bc1f6423384bcd2bc36e4bba942a77546e6c3cc84, 0x18c5386f7f1e237a83088fc5bf450a2ec79989920cabf6829d175f9f4d79d8ad, 0x3d3bfa5705c6fc586c63420bd4193dff231ed5405508f6efebfa9630c742e628);
    (0xb40851e575496fd6f403a07490bbe71dc9d3756eb669240be2331483fe633c7c, 0x26ae38a67b547b23a6ed9c993e0bad7016f789fddd02cf7af274c7434ebbd533, 0x627eec59fd36346d5c2fce5e9ff69d34522201c8029fa0b492175c78831812a1, 0xb05016c4647ad35efb922e6cc0454ed73f6d877f1d423cc60e5b420fff8c2553, 0x7e9bb36fe5799bc0c878ac244156b3b640acde193d4d867d616ee4a7f780afe1, -0xecaa07dface1134abbc5f4373645c09233207712e18970fd03217f63f860329);
    (0x5375a9af880f278ace7a803b90d829fb2722eb7779b1af319757f882f34e7f0f, 0x3d78b350a90db81222caea22e92754d351ba473bbef260dc3e3feba3b5c1e497, 0x4ca5c395104582a56b7a316e9efb6731a85d082ef0d7fda15044210605f775aa, 0x1b146c50c770c6da7475691da5ebeacaaab4f9ed60d6299dd5400c304883776c, 0x1b35821c5d256b7d76019a6d02ea78439077d6ee71b9294f1a5598ece2a45bb1, -0x76e1f6a881b117b827c6c9ee99067882c540fd8f67de12952a09d329096ca89);
    (0xb7b6fae9554a404358242e00f57b36273cb5d50bbc2cec8035b9793b6ec531e4, 0x59fb9f8c1bf89bed8288f70251016d6a687f424e8c04422b7f23cd5974d9700e, 0x6c363130db90dc024ece8691ca7a7a3b427f13ba6e81ed5f022a5af182cb879f, 0x41ba547992ab71b57143fe799c02e35563613021f0e85a3cb89d5a6301f259f3, 0x83d71d8351a1fcb50adbf429d3a189112c7eb04e72b06c7ce9dfbafe41466a6c, -0x1475f7e448c469a50b2f790f60e77bf7810245256f4d4cb156d260408b37cfcb);
    (0xba1deb43ae53f03676a3e83820236ae740c60cefc74a7b9da3f954d7450a047b, 0x2cc21697f0390f8702acd0e9238fbf2ded3df3ef6a5dfed5033ffe71fd8220e5, 0x4150bacc4d58ccebbb7a8717d7603dfd1646a8dd4aa7d46e82cf01ed45a5c1ba, 0x3e7545e1d74b2a3b0cd40a7bbec72f5326277985835aa50c6440de12cec9c9e2, 0x874f7d5d7edccc066266fef6df8b3fbe92f2b0e1cc79a720bd9ef4d5603a9168, 0x20e11695b1050bf295e9eca6f5a375257a8fa3be20bbc829c709462f628159c6);
    (0x14a56f65679e6e65f71ac3cc1ae8153021daee6cf6a012350b06a896acce49f2, 0xaae3e2627c40f28421917d30da63a9dbf000631902b3b4a48f1378ae88e2d2de, 0x8a2acfd78a7408d5250a84e299baad7364c57460e7cd310334f805eb31fb731a, -0xcf0d8a6f88c8ec9a525c94cb85560545a184e55428250731fe9b9b61071678d, 0x1aa4450a1616b808ebd1eb8fc88c86d2a54d522b7a17bf5a8e5080d08b59aa4, -0xa2c2696ca3cc0b0c616e8e8fbd223b81d041bcae71a71194a1c9043eccac4aa);
    (0x18f9739b8cb680479d000f3e1af2bd60877c8a8e7fc573a50460836f0f191cea, 0x9c63d7479a38d2b8cc38b71b84d32cb90f01a0cb571115b9b71e908b728bc91d, 0xdf59d65a95a03714a0a8605b5f7f784c387eda9815c39c30b38e9c0d8d31c8c2, -0x13b450f8715e9b430666abb96abcafa4760829e52565757f16e0179f9d1b3bd3c, 0x26fb8bf432f1202a257392871752eeb569c693cede1e54e7f9fe76af840cfe5, 0x16a2221a6d2c6112aa81dad47b1ff4764c4c15f0719d805a0d5a8174a08d4d2);
    (0x3773ca51221b601cfa12af402231f78621250173b5de98c75462e6fbd17a8410, 0x95c0d754f09a85ab198d1b32f5504b84d190463fe21ffc6396e0493dcc6d4fc, 0x61753ab8e0797701bd246bef27111ed17320fa86cc395a63133e657ba2b311a7, -0xbddada1594ce24da93173745b6d39f3d18156a915c45877e244d5e3ed7897c55, 0xc02f54e41708b6e9b088987db53c3202f6968ab9143478d8ac58a96d8903e56, 0x1fd92d0e95ec74fb08ac6ffca71cad76adcdb8ad8dbd53cfca1526acbf89d209);
    (0x14398a16777eddfc6e5691e8a61030912145d68726de52c6919a0ca0c1058436, 0xd047e81271daf6ae0b56d3f922ebf0a423155e3a05a31b453265fe6089b44a34, 0x6e1192a81f7c7e6437fa909f26e5a68520954870f6f9c58169d61f51d60dba58, 0xe5f5260c21a19cbfa604000a089b49c64f244d1f45277aad562fbdc7996dcfc, 0x1990a824b2943fbd49028f1934b4a1b1a4883ef93415c9845e1acb459324648, -0xfb722e48cacd0312bef61bbb1e7c0c9087a46f0ff963ec83247592b9e8da861);
    (0x8743822a8b82a31c0025db94933b2dcc77863f1e706d93b81b43dfbe9323ea5, 0x957fc8105ead7e0803e71c3383316b06e9bcd3888c0b4d37d4e9b69b9003b671, 0x20551c6b8343339037b86c39bd826c5a8238e5b58c10f4ef795d6d5dd68eee8, -0x2db95551e364701a059427defd5996f8ce2a3653c329d3412a973ef316176d4, 0x4778451643980b2ba95d16889b025bb6a1b3e4c008adb662fe6b69237450a4, 0x1f0f0924ddc6f60f99dee88babee926a7eafe436847667f29010d7d32beb2c1);
    (0xe48d3c3e62e22f6de8978f91824236bb4bfd2f98c1fe39198b62f87cb2eab9f1, 0x2d3fbb159f4a455b740a336eb6764514f7059ac3d2b4a88b5a2a26388784ab01, 0xc92c9d872180f0997691a20e4388080e80c335aa888dcc156eca1509e96c121d, -0x1024e4787f8ec216265efe3b78d2bd6910f5643237a4ac2fc20c509e1b9d3309d, 0xcc0be13a8b091f32175ca11af7f16e147b266c85b464251708c259f9eb0ddd62, 0x5d128f5ee3625289797c6cb0d2c609be92dfe6cf9b4b10f4b1fbeafaee598185);
    (0xd944effa9513bac8cac47e91f37e661d63929a4fefb708d133b605ff898e34a9, 0x750f9078ee19dd79a8a809834b6a032f4932d68628c25338fb2ef79bb724ed2f, 0xa06f4f4e8a370b4db23cccb643fe2ac10d334b84e7ab65e2b5e4571301f6b67d, 0x13d7b95044412000054ae1019c54e102b791751b27d6bbed2d82382ef8fac8f69, 0xb865f1672ed07cc5fa888ab09690969d529d90e197ce4f80c66974475f7d79a0, -0x3cf282672f2e80a9bfe62bce4a91a2afef83737657b63c3d64714f463e09a888);
    (0x8d184f63ed6dccdee617b4642fc9ee15d3c44b1e3a4a571bfd635d435714492a, 0x3168a719d83f38d750cc7343b6b2c44677e3d705e5765f8251c0f2d37273fec8, 0xfca509cabc00a3d15d8dfb4b730f488c3b56bbfa99c3a5db6bd544b28591bddd, 0x294bdb92d0beef28cc8e8e78200da5660019261caf3e7c8a5743c7f64a0ed31, 0x4dc3c9c30ee64bcf36d3c3fd96e496170bb5462e1f678b5b8764971fe61c0fbb, 0x25495b2a2a429af3143409f3a681da93bf432893a2e898be429fd7de058c9234);
    (0x8855de8e208ae437942a1d9a37e19b55465aca00b5db7597a5db9136a1507bb, 0xdaacc2906646cefe3d6ec2033bdc548816fede766f117918b0ebe5c98cea2da5, 0xb12bb7891249b3ee05ae93c0ec95a235c22bdb99d39bdde8dfe86e7908622597, -0xbca22cbd9c4ef1883ebce45d2c85d8b555bdfec5cadcb43269fd4fb3da19dbe, 0x489b59448e6ffe0f9c5dba75aa4271a785e232911c8df469758cdfb0b051dc, -0x5a24f55b22ed9441ecc60ef8b52a46861d97fc2949756aa84ab4069259bfc8d);
    (0xf609dc53b478ec772f067797d7431fb078b29e935754d6d71b16450d0b2f2627, 0xf8699fc3e181ac392e87ad8be4731076b21fc558ace1ce04932f35371817d0f1, 0x8cd4ed2fe2561131143c81c7d530894a82b292e231a7263ca72ded10be0f53ef, -0xdbd2651685e938c20a78d229fad1d0593e2890abd4fa392132a0c48b63bcb447, 0xec76f3d21a5b10840ad2300dfa69ce7ea89458d2ec9bae86b3127fca34e1522a, -0x1c94a1cb4684b2c7cbe8aa1ef1d1cd8f2ef7ed0c8cdc457fdf075a8122d99706);
    (0x2cad2d7096d53b958ca2148457e3bd28752782813e0547d6502087ae95645af5, 0xcde8d00f2399d724be80a537c1e6136b7eb89359dffb1688e844ec7f626feddb, 0x63f48e075a86c4c7cc7262f56b84f3f379b7143a4433c792cccdfdfca741b245, -0x161b1e0959fce42c9668c26eccb078b843c303a04d281d4dd25a15d75abf76ea, 0x7cbfcc52615ef393add13d8b7a5c9777b555b1d66a0a1c616e6063e50c0cafb, 0x76ae44ac3b0b38494cb7a08e17dd69357f073b758503b142a7eda90bdf8fb46);
    (0x4fe6f97950ccad5de444d34987743619f7f14ddad75aa98c12639d56740fa899, 0x617ad4b9e4ac4326ecc17b60b11981d81f3f2fe349fc96e83fdb3717dfdd8a92, 0x344a80d0447fccea70e7a2944bd30e14f53c40aa1df0a8ee789718b921130a93, -0x1b276c4edd30175de7b455a348d52085b6f3d76e8ff8575346772e96c2ffeea3f, 0x18f05e5e18f8bb731bd5bee22784bdeab7c02ee69855dd1549107d06ea32c627, 0x21d7c50978ac9f3b2015ab402b28cf71480a41dd6178bc415c8bcec35a148b87);
    (0x9f92b68ce60e9a43f06d5234a6734f610867c9b3a904208b7bf51fbff10e1c72, 0xbb58c0216156666deea80d15464e8c819b90573f46d52c8e4a57c36852c0b8ca, 0x9303c10f762c4b960e71f7f23455e051f6bd83e6336eddc1a567ecf2bb900eb9, -0x2e2a74dbd270fc440a0dd4303999a5ee2d4881474c4ae31ff15a5290b2663720, 0x637792d7c0a930f18c359b00e3ae6959f0e23ce6ba176722b8875a6d8e5c750a, -0x380455dac2ed95f38d8e074abb873c9ddf43e98989beb72ae5e62da36d7f1a84);
    (0xe2fece6a44f0b71c88596fa19c020308401b8ee6818de6bdf8a7013e1b385cb4, 0x3f9f2fd8adc360ea8254dfd9d3c76e3a5a9936761710896c8fba81cf42dc7760, 0xdfa532b1b9703ee42f0dc2f24266458c714a1bc1459081b7521d0b8facc29be0, -0x96990cf9c1b7c1f22ab25054b51beb3fef8c589c1899b824a1619c09ed82793c, 0xc946e211e309040a4df6cd42b6c6a35e27c9dca19610655afe4d7e0f48e8b124, 0x6db4f74004ebd6222b87e7c64f4487d59b81912b04070e6a79dd9f5b8ebadc41);
    (0xe8dfc4979ca0bebbe0e68e888b9cc7be544c85f58b583d8d946ad358d6d1b8e3, 0x1a5c791d8daf6e0e59b68d2ba2e2ce34657e794cd1679d75adeb364aeb111dc, 0x3dbf63033ed43b021b52d215dbf2da56c2337e62f027903358723b4d934a91f6, 0x34df1759a1a356cd537f6eaed8fcb4ed025bc29c4f343e4b57f223e52d873030, 0xd3d657eae2febb611c78b36c1c3a29aae2016ef0c2f8af6b5b3de6f25e18b89b, 0x38603259ae83b8ef87b5fc8bc4f61990c6e225d0321b60e34359be2b1cadf1aa);
    (0xe2c35dcf2af44dd2ffab0e04e58bbf9c58f34536f772a5e4c262046b0270d4a1, 0x961837310e0930b2a8dbe2fde03895ec7ceaf7e6c8b7407dcce22b00b65ecdf7, 0x353891df442f2f957b0e5d6cbbc1ac7eb6d1b27573e315cb9beea56e498dea82, 0x6d5c04e58c359a00c37432c4c9e3c96b848e6c1e692b4e8a529afb75d371e084, 0xc8dd86b9d3d2f67319b1bf016d54c64a658417e5ceb6aa5311997ee8f7917f0e, -0x837e501b4735d9d24cb48167bf8f3f9fc0e04b0ecfaddc030c3f0e62ca8705fd);
    (0x5913d2887bab2ac642a994a36bdb7af3cc536179af560fd53296703404dd3ee4, 0x95e35d555776d85d93590c8d6aaafb899691a703c5e96eaa70440974dc0e6241, 0x193464eb895844da05184a1b7ed8379fd02727c014e8cf623f9eea8495f9d032, -0xe2f7958b313ccdf530f233828fd55fb866d89c4f84e4b2d0b1d399fc68ea210d, 0x1efec9ebd36392cea79074176d5c5374e39758ee36114a2d0098cbd46eb5c3ef, 0x1263d504aaee121827615e0547e55183a78f0b4437bee87b43e9b74f2aa1dc);
    (0xe05ebe4d2e5908122bd89c14d039022a67a5d53edd5ee49023ced70b4ab7bdb3, 0xd5caa908e06e3e8c33f37a9d0c8c182521b0ed1a369c827c522daaee1ae77e98, 0xceff44fb8e7f70943537b111352fc4b61902881391f780211de517c5a9c283ca, -0x18aac27a2006fdbba436bb2fff76f2cc2fc4a51c54f73c71d4ba73b8de3acc1f, 0xc4a5f0175f407f92cc013618184eeffd6b0f926576fabedc8012fb86f3a292c8, -0x380208abd21791ef79805d5672d7f13e3031151b15ee71e923d1acfe45ba63ff);
    (0xac3fe3b4cce86106954240701c809ef3af1f8ad7d44ab8212058b221a3d7123b, 0x464be6deea8c2ad5f8fc79d3bd5c18cc1cadacc8c6647f8a0f84a79edacfdf47, 0xe8c56056a088fbe9aaa451760bc2c6e39b351a7b1fb6288cc3ed3583d481637d, -0x101124294d349ec1419d0213d71002be9b57f996c572d065ffa536b428c90d59c, 0x73e5e9ecd0df3fd580abc8ba3f826928e19d14cfa28d5d7ad04f0ae9b1ff027e, 0x608cfa48b7ae6665c212434771ebf185ba668d0a7b2a18d198b05bf2188c56dc);
    (0xb76907d6720f02691974598a2411a3a323c303cd2267db790df430e24ca6f42, 0x6fb1748276da4e52baed36c24593f941aa6f457b9f3f8a01af0001f89316a176, 0x48a6f57f3d055b805579a857da6125703ec9cc24097c7ee9f91f3506179640f7, -0x2510374aa2f228a1a16f758030480bea123fc47985d18f51268a6f7b43c5b891, 0x8367544c053873a1f2a65f96c1507a45f914202b6f426a012a504944e6a300, -0x1da8942b7595ed621408d5464c3eeb5ab8658906d21f7438bc56d20242ca50e);
    (0x884bb2dcf762dfdb834d6eb858d9201c34a8c6c7f75dbec22c591951d064e39, 0x2f99ef1ead2bc2ab2c4f0c620c333825e5310c10d2a02800964fdff88104aa32, 0x5ceda6206497d596452edfccc7f09d4d11daad5c3e40b93303f7d2890b6fdf34, 0x559d95eb7ab931f13a4e9fc0bd4bdd6a21f45292556775867612df802f8dff, 0x4890846d114a0888066f2b0dd8a987a8bfa08aefe8dcf6ae6c381c7b48305f, 0x221f7288c446471066f066ac387656b4d5f0c0c0c8f30c9bab318db7f1eae57);
    (0xef087145c4e6b0feac385e1a71591b7bd161a83150d87385bd3a4f87e69e4387, 0x8d9ec4b58b3fe46ed2b803bcd1cd7a6ec6ebe05c8be7a037af9c770b33e00f10, 0x4e8fd56687fba55dd8a8de98b2c9495b2a6d3094c8af9fb7e3454adf92a6c214, 0x92fc363070bf420d14fd2777e590e4201d732a512d44a26853891ed819628e34, 0xdf30c3c78c21b7bdf98a4f76567478bdf72c8f20f158b9b22bce731305d1bdd3, -0x57c99d2847f152b7b7442fd38becdd9e162b9d7df367b7e6f67180645e5020c6);
    (0x6cc4d94d1ce5ec0eae4507c7ceed8788b307f9d04c793f4cafe8bf67d6b5189e, 0x5c4a4af1984b4efe9b27f2c4ba60a1e22881bcbd8b6631ad5549b9edcf21b2c7, 0xf89a672ff1ac4b8c82ad4b6f9d8fd2f81fb3c6bdc9c365a2e7bffda253daa7be, -0x871f06653b4211a436c13e5b9321207c6ec614661e510623b36987d904deb8c, 0x2e36aeb686ea1176094916adbf52a46e784d79e944a0b18735f937840bd2fafb, 0x14f591eb5bb6768e36e77d2a03f5d204fc8561af5a651b7cbc64169aefa69584);
    (0xb41c420da1991089424390a754e3f526c6b85a6ebde866074823a0ce50c39796, 0xff534247f37bf690c250e94415ee596a6762a7a72935f2bb60dfd7972d23a8f8, 0x40970d9a5f2638e0c70bc432640351416f9d0dac9d6bc7157b40816d0ff99ea6, 0xf9ff90e4e7dda4cc22c7b540a994f537a0b2d320f0d26c5effc62314e0fff87b, 0x7eb7c001af45a0c95f49d89fefe9bdf621d474dd3aa9f0896f3ae16626facb02, -0x72b44cf4c3b3207b5f9c79ee9292709550160c192f7b8bd474e8a7e346198b06);
    (0xa320b7a492e880a834decc99cda7dae742e1c2d39d77e87c05d0d73d31c03319, 0x10ef858256ba1082197bcffa4b804b1b7accf08b9847a62a3bce42f57328d686, 0xc349ef5add62b496f7b15ac2f2f863337c2ec41c3dec212b8f6163d5d7457c2e, -0x551eda5fb93144f98a873eeefcf4b5f5014ad65f4039777610ade0c3373e482e, 0x67f2ae09fff581cb538449429627cc65344d22eef1b5e457e1b84b9eee908695, 0x97e7f8abf826a339668fb62ad94ef66518bc2806649b1a0a6bae78705a6e2312);
    (0xed592176e77eae0487a7a163d0aa9d554cb9fb66a82c1eae570822f0a6b83d0a, 0x1850db30483565067653ca0e299a698b13ddcc820f57c69c5be7ab314f5dfaff, 0x4268b57158d04ed5f3fcf1310f03549497bff0c55d43249d8a58411f8ada8357, 0x166c26f4496a3d437cbef280c2f8d3216ae50719d7ea20af1673da3f482913694, 0xdc0e26fe71ad6332454e27433d77b883149101dc0eb7c72363364fc89e6125f7, -0x6d7ae1fcb9d86a98ae41cba50f7311f28f2de0c0e338d3cbc4f1ecd6e3a77f1);
    (0x4938cbbf15b4b0dcd42973609a9ff4d9dfab3402541744e60363a6f6fcef755b, 0x6bf39defb01a1f79b7bbd080841dd339b65c17d83f8dc221137f673307a549cc, 0xc8780fc54a0da4b9b210d08a0279d9139910662471c26b01f6cf083a754e4909, 0x1bddda3a8054aba94114d16d165a1a1f820bcc406151bbf6b1bffc4eca37af9e, 0x14f170ccc02326f94791bc7b50d1c86e38d1e3f548a4c9c262f9fef08491c1ea, -0x17ebf7b3ac736997378b9185c46dfd61b83c21460aa23f4cf40ce70e14d768f1);
    (0x6691f2427c5d92dba8dbb825dd6b3c4057e2b5b29bf751edbb762a4ebbc25db9, 0x1e9ba9dbfc563c44174cc709ca7fabadb227d5f9c902d760b453a76281d7ce5c, 0x228a21c803e2864e57a7adf14fe391e3860428155adb739abbd6465d840e239a, 0x1813966b77f6ae029c1c75641694c9a6e361cb9db99d0d85f25073cd3b701d4e, 0x2918a0414fad376cadb62ca01435a4bfdf7d10d7a2fb1fefb3a9e55ec87abdd3, 0x1efd234253c34b0a5145b5cb64fcf11d7b835cc80a6cbe72c1a14abd308c3943);
    (0x4fc168929b602ba43afbfaa75f36dc9c8f4bb7a0e3477c07aac7d9ca3ff27a20, 0xc55f441d904b7f0f78c688e795e4885e2dab8d86b16705842efbc016ccb5d896, 0xfb3493b40c039cac61e9ac5cd446d8d46d301a6c9ee212f765c5f133bcdcd4bd, 0xa8ae1f41c3609c61b6d72ee7808abbf6c789f4be6fba31bf82ca8f89af435b0, 0x18d8f0a953ab1424e57d44dce23d44d563cc00d3ec8a4b54b5ab92ddd86b55ee, -0x33f45a307f88ed33873d0e7ff9e2fd0e41caa05c70f15825c966bca552b42d19);
    (0xd103fd171cf6c69cdc173dcf04da0dac35c32e9733ce89912c9f3015428732c7, 0x4f227d2f82c63daaca55efad31759b08cca159a5345cbaf7ced16bcd9261410e, 0xdcf267ebf957ae9ea335c0a46c6548bcf40a5e8a19b5a87e5b605821dce261cf, -0x3dbf8295e0b4543a46359356b2963cada89254e5d421157803ac1c05e0dc8923, 0xaaa7834fa60c4f6ac33bc00194d188fa601b56129162b7c913bee766d2799b9b, 0x608976036b43b59785f9388b1ea0d7d9faf2b8c267cf6b30ba64a2faeb3cf794);
    (0xd506913003599f78ac445ae99009b96566d6eeefba69515e0beb470f35974211, 0x60e3d548913761d8b9b527c8f05b3f2b35f933708870fff16126849c049ef8de, 0x9d756ef8bcf8650d5e7882b3d561b900bff13ece55892e0c3296fa97ce0660c3, 0x12653cd2e94beb4283527873967049908b5105cc4aa39409ba706fd3e61f4a96e, 0xb143edc5062ab85f109f8c000e8a1c400242899cd6f41debc66e2a92b98bbb89, -0xec652e6c0fcaaf13c1f7c6fc7b0e0b1dba7039ed4708aafd6327c0e785cbc3e);
    (0x8eea3aaf4e300ffe450e21908a65c6533a94e5dfaf446b9cb3b6da15fbf80079, 0xb4330056a14e73a090f393bf520787589272562049290fd6d8d4ed9a0d307d4e, 0xf925abc883d4748ad6a03c0d7782059d018d4c71a9c1309f4cc79980881f7a86, 0x41cb69cc957b6bc5841cdc3507fbbf69bf33ed605019457090ddc2fe3adb1156, 0x4fc8af69d0ac2915164852c378bb96cba74b387d34048af8305e70c1712b3b89, -0x2e8223582418e26011f153d08eba1e9436901117224877374c6ce67c64bff417);
    (0xfde2389ade086bc4378bdbc2fc139e626e7337dea555d8316ecd54e3dd86c7f6, 0x46b41a5a0aaf1e846500cc3b6374d554f2613f75df2200227b67af26462d57a3, 0x1a7b11bf040698c8d2a3dce726aef007ad77ff3c687da374f431b6f7a978e1b0, 0x71a58252af32b2ebc00b2f236be1866a9e642df1141088b3395a3c189e992684, 0xfbc8ebca18d0cab3ae169edea8e53549fe4d0ca92fd51f67dd3ca65a20aca1eb, 0x6c972b87a975b02ba252b6812bbb0225f3ee06fb30e4cb024145fb08aae2dba4);
    (0x3ca0e1004b9cc9be6dcff419b1cd5e47dfeda0595824178f1a9eedbbfb191c20, 0x7be501c086bb251ed23856b7b39e8060b90eca9568dcc5ff67bb4999f0dd1202, 0x4d3a49a0d3e97fd7c1379b38f632fcc8ee2c1dfdcf913ce40de2f1c0e2d3377, -0x2e09fea6d0092d4e4ad0e713cf36aa3c61da6ebe6602c40acab6d0434025be95, 0xe5bce92299187772278b9a0c9f5f402d522197e004684e6a813c092689c22c8, -0xc98e38cb0375399e3825babf95e49e37b2eddc7c8c0c5fce683ff8ad5a6d6a9);
    (0xebce926bed2a884dfd7c2a227719fcf25e877d1c43ae03af07e8897fe9977de6, 0xc16d30187c034704279be29b729d82b4829badbfc5ac97d623038a214570fdc9, 0x36306bd94ed42b04420dafcfdb39caf5cc23824a9aa3f5ecbbee135051931ef8, -0x1fb2cd107bbe5b7fdfcd971b9ee7bd0a3e2367ac88121396c972e5701650913, 0xd934e7821edd0eb72da496f4057df4b94c2499d4ca62dcd905d956970f29ab8f, -0x400c1de503b4c01404580c412469608b2f0b4df95a3ee9bf6786a523e8367617);
    (0x16fffb067b206af370c27e74094874a1b0545eb1141b533b4caffb0b7dbb5744, 0xd5dbaaab715f586ee16dd48c7a2688e60fdf9e582a1b135b7b5146e75dfc62c, 0x68c2e6fa239b2c1077ecd5127149b9d64a4e35c4854bc79baa730234cdfa7039, -0x1acb4c1fed446444b408f29fd84472aece618dceafe417302ea9452e90a1b8bbd, 0x210ff1b2a3892927ad29e9b61be010c1a132c486052cd22f8250211e08dee4e, 0x102d600d1e5d28a0471588dff5582d7bc8cdf915d76b95f88dcfd1edcf5b06ed);
    (0xfda5f0fe370596e6501ae12631736e4d6444239b483d68ec3dd5c60dee41d0ee, 0x25e720119e087848ad59f7700fe4f02fbf663c7db66bc7c56d7ec3ada36a8705, 0x6f3d654a932f5038529c4da2413ded2b0c0fcd1004cb4282228f6e45b674e690, 0xcd8117322d78fa47550774debdf43108b6dfe81ec4d203444334a668fe3da274, 0xfb5169e703519d13751311db48d5ae3275c595cf9e64bfab38b5b28677d0c7c9, -0x184fb0de3a39a812eb427c75ff14592805ae213890a6768850bf895421fc0329);
    (0x5c6972f7c459d16149547d7cec37d10a24e872de7c88ba65c7bbd2a0a686d459, 0xe90339456b62e49962c1a428c6586e65480fe3011aac4b43ee76fa329fbb7654, 0x30ec4383063a0c5b5e848d9970da37c0dbb88e14ba3d610da254a53fbc27ae45, 0x1e43e642323ad505679130175daada698f95e153f7440a76b142f04ff0c4727d, 0x215bf61198013ad828e938abb43da915753bd8694046e7555fe39fb360ef2e00, -0x466e77344d071315571dfaf0786abaaa550b8f1bc3d9486582a6ee9124c47274);
    (0x92f10ad1dd90b20759268376f303eaedb8b827e86b0176eaa4dc763b0c43dae7, 0x4d868e41f7e35d01994a798ce5bd988d8c869c2903d82cfa264944d1a3766bde, 0x9da27b7dd03aa32a25c681d645e2a38c6407df55adc51951ee31292f6336941b, -0x2441afce50a37ed0949edde814a5fe98df8b4df32c56c3fa5a66a11c6259d07f6, 0x5457d34cc05146da677430973a4cfb0b68669283b6897ab2b90ddb1c5aa3b905, 0x593f80774c26b89acf511f45e819dc0aad9c3f82ccf3179aa2e5382fc5ae0f06);
    (0xd8f732f09f6ca1a98271fa28defdc084c0ace7cf29b80fa1de6c9ff015fab29c, 0xbf13b012d88668076b1ac54d161bf0532dea7b054a8953072fb40d02d58d0729, 0x5c159e1ef894920cb18b72673c5535740054b62e8ab6e566661467b6a0b988d9, 0x2579d12194a765d878452d8bd792987a7753449730872ec725e47e60f371ed35, 0xb7e214a9637dd4dfbf5781c82bbdd18171636b82f4739d5913d3c1ea1f59015f, -0x603cba4c29b3a58eee969a8cade8ce3278e591e6a1561270da4263caa1a773d8);
    (0x70f94744cbb07bd3ddb7809c9ea45ad84781ce5935175c8879326ea96c0e11d8, 0x3776cfc0b2db0d459a48443a09ddd5af28721e96ba72abf235b64fa8d46a3247, 0x73fd67e22b955230104351f6b862bd8ae7008594d7ede3b23605ff73c385c094, -0x15a94e711037fdc260a1c1591754b69efd5bf621d078174f0bf4e28381baa4aed, 0x31db1117e9e5e52300a88b174f26c718360e8de85cdc2a83c887503730d03809, 0x3bd8af7b142adcf89170d71ede4f927933bc4556bbd1a5d9e76c12092ffc6d2d);
    (0x30ac55b1d132bec32f5b00a7ca906d11c37657ccce0a3ed789b744b49c00500b, 0xb3834e038e313165ed17edca527cc034b4863a724e97b97136ba8523c8c5f388, 0xa9f95912f6ee4344c11f151ac1e8dd51e8f80fc67327f8f225719412648e3534, 0xc9a0a8cc3de02678b0613c59f16b4ec9c614656a8b8c2a7b5fc439d1d41b659, 0x9411425f213b4282dd70f6b7d6c153db9f933b5521bb4db1b53bf255c060f8e, -0x1795d997adf9cda8ae18a322191ff1104319bc2ffa52750de0907d1235fe51dd);
    (0xb5a9bb7438e2b1d0bec5f1c9de15bd93b4b4ffe2b129c2aaa0b23079fdb1421c, 0x592fe7d1e184530da8359bde0eb6eb14acf6d4ea8f6b1e7efe98cd4a572c9129, 0x28f72fea4b52502ceb4811ca1793dec5838776368c27cddcf62ea95d0059a3db, -0x8866ab3caeebf561a90d75a9e1dc90145474baa14ee7739869a2518dbad528a0, 0x80e9739b6126aa9ebd3bdbac86bbc177b2f83b188fba604b39ca7eb2a98d79d9, 0x4018da73836409b01c1416fa53e47fe017c0f47a1f8acb84ff9fb2f779749fbb);
    (0x64a964c1fe188bb4f25576c839a61ca8165043ab130d4b974e13372034a27b30, 0x87ae4224b6b271448a40318fad46aca086db64f62b310dd201190904b05eeaa6, 0xc54e4cf45d981dd04d6be096748832f79aeba5c287157714c6617461a23f2b38, -0x3cffb4691dba5a9b514899cbbb206dbc7783d442b1c8b9fa0fa5153f1487ffdd, 0x2794c6cdbe4ccb121c977560fa1c716feeb94b005e390b9be8dcdc51bde5fa78, -0x12481efe92a505ce3d46c456debe3b4a1f011921f2e4053414459e10792b32ed);
    (0x85610b89b5890af21985eb81355d6ec065e100fe5c7f9b9d72b6f8e563a8e15c, 0xcfe9fb90d0498136d669b5806815fb1411fe13fbde4f155215e7cf09f61751ec, 0x3a7a55f0f7ef20bb45736ec49e8b0450547df34c1c43052168307669821ba187, -0xa22ce0ce0603328fee8fa2f962ade81cf7afd99baded3bba475e8de22723914, 0x457dfac6d58116e76e5616589c9f30107d12155802656a6f736acf4d97173da8, -0x25a26937d767f29f69bfff1bb61e8806448b93cb9649ab7abc138c843d48c1c9);
    (0x3a10cf73504cf524345e44a8feeed394a6d0b7599dda2fc45b948213a650c6e, 0x2b6fd73c0c2c5ec7b3e422bd01c0fec721a2c55ccbab30fcd2adf0aa5e9e41b9, 0xcc9527f138d8ec255c7013ee8e3d026e50e6839fae636d3831420118280c1bf4, -0x138b885369d6f4fcba26a8dbf9c36da6c1544ae6996c0728290ceaca38b1207, 0xd2b9f1ad6e89880bf063e75c1576612ab39c2a171843cab237f26eab6f7a9, 0x254e7926539155646abdafcbf376b021ece32a602ffbfa0aa418334d11613c1);
    (0xc997588d4d738d4c168c80fcc1a9ae8f5da252d14400b80d0c7fedfc216e1f4, 0xd982a75eebfb0a2164d16b25858284a9b81fd3b181d24560bb718c21b1082cb, 0x55cc9dc54c044ae40b1e1cecd1737c5910baf3a1702697f391572d23ba83992d, -0x1f9079c3087e3562df1347cd31b6106903300e2eb404bbfc66e916d8d415d7d, 0x9ebf028778f245700507e8c687a67523262bbdfcce4c81decee73374b6171d, 0x177ffb31122b4a64ae4ea07e25411ee7b86a124f0e773534c5a31f1ef44f6f9);
    (0x20c47aeb036cf8dc2a044bcb62c1e288f68db0343523c1640c9bfb4df8c683b0, 0xd6000992c84984be835cf7fbe2ceeba6257ee0dfb916ccb1e0a5160869b6e107, 0x1ea7665ff67a3c87b223bd636eba4c13880458292c86c6d97a92c2c1baca1fbf, 0xdd7c8b499780b2e4265623b5edd40bf490778b29d1e34b25735c2ad655f8bab, 0x431b58733bd541742efe20038eb8f34844b04377fff26385c0b20f9294e484a, -0x19a6cba3e7a3dd71c505391d83efa7e2c1f433523c7b730d79b1fc66b2438594);
    (0x313857e812062c41c330095c84594bb26e2c260e384eb453eb93864d0f45941, 0x5cbd7c69f2b531be44eb1b0a7dd544cc690b1529385418df7c0540026efe856b, 0x2008a93126e735c67dc8374e123fd132a681b8156ecc1f53336312496cb06fd7, -0x217ef96cc878949b70123d820f4f71f1b3c4183aa12c7ad33ed8ca145ec929d7b, 0x9769e0d6a9dce45680790d54ac0833ea8eb1cc0c98bdaf55ce11389664b78, 0x17506d373ca2845eef387f773da4879ef743bb4b81ceaab7a351677122b01da);
    (0x79ec1d751e222d03b83010ca8bb463cc01ded27db6b0ea61317e56716bba71d6, 0xb11ce32005b685c3f705022df1f502580e9f1dfdd37cae1cd809ef581656aa4e, 0xe875781604c8574c6d9b4709a7ad9cd45d2bb5f2a316113cccc5363b54bf9ba9, 0xdd02ed21b1da0b78fb737de3c138937e891ba020fa1dd1e6103ade1d7a361d3, 0x3a110d9f09cf9bf8cff50cbc8951d73c157fa50999ab62d4d8d1739caf95cddd, -0x282ee934270028d8f5d7c6a64b8b94580a4df697d3e73582ec8d0fb2f5fb755e);
    (0x23aab57bf3043de7b25c7b9e440444616cd956a8dfe881f59b036f9720b7ed5f, 0xde755fc4754582b14c057e9eca8abd8db44933c2c433ca91915f2becd827fb2a, 0xce2d13eac96a2ecf4b55c171ab8b325100962ba7d9f6961506e6071f92f59b8e, -0x12ed4bb8d88a7f92b0bf2b795456f515d4caa934c65ef63db7a5cf169960cd282, 0x4f81f756dba6c36fecc59157b4978e69e1af3303ee92799c81909b8e2aa0875, -0x65155f2c5228613435ade1ae4a925db504e4f9efb8cd2d8c6876d3db01adb15);
    (0xa7d787146a05e0ec331adcd628a8de0175331aaa3d0078fc7d599ad8802ff419, 0xd9cf2d4d44ec3c4e4b9e94ac87099dba94f037884864a5a02ec141c26cc0111f, 0x988f815f3422574b8fb990c7a17a5d72ef54787f5d64a73ab9b1040fbeab5607, -0x4208276c32512f9bf1647724054b00b66ace780f6d768ff615405d18eb611554, 0x6e0ae7b0cde44ac6e7780472d30b6eee821ed9ba66d1e53e20b98eadcfbd6e70, 0x30c54f426298fed9a25800175ac707c057436332dd2a834f40ad5f12bd77ce2);
    (0x2c8afbbe0fdf674442d52d50643db8bb458bc0368ae9c5e8d4c817f08e03b8fc, 0xe04ed67b8e9bf4bda66a547633941ca2ed3681d84799be0324c3c15271d9310d, 0x84999ef592cae8fb6df4cc07ac79ac4bbcb7710487509224760385f55915959f, -0x1f6dbac29b946cea5570f1cbc280166353a6d82937002627bb30b5b9d1d542a75, 0x7c011fdb5ec289671aa6ad8cad59ca0d8a3b487d840c35327bd4c672e156d4b, -0x121784925a505c3b8326644d785c485278873f0c05aa729596a039127ae7372);
    (0xb65981c6e40dfc4532c53550eb11421087029c42b3e5b963d289164e08c4de74, 0x774b906d572f10d267fa2cf7deecd7a38bfec7e9a3fe42da63f11d9bba3c880d, 0x258d3fe4570f7a740d6b5453fa1e1acfdf1a5e7c49195f9286869533803c5494, -0x490e8bd2f812cb8119ec6bb05865904aefe13b2a741dcfdbaccce3e1ace51b73, 0x81e363d24a5880c7755697424358bfaaa902ba3684b04e684761570ee181bc82, 0x4acd0b2db2baaedc0bff78761fba732995dd1a8dcfc66fba954178a66d5f0ec3);
    (0x4d9433979999f14d5d70f4d4d01bd8679ebc9dbf49bc7952fac772fc4335f299, 0xbeddbd818ece2da7d283a469617246341a4df4c31499159fd2c89ad81e786d14, 0xae8c2922a8c8f4ab67df2d9836e0ad96939be9c5da9a84a9c0721d9e363de803, -0x900390d6cc43c4611af33ad033367ed42fc85a80eb32a746af005129ed21d45d, 0x17827cd4e415f6217192d96323ac75543288d9ffca421c612a8fc05abe44922d, -0x15b0667da590086ea1e0130d9c3c5cc4ff9dc513e98de3608ed6258cb575111a);
    (0xe5ea9b41017028e84d4d1c14aecc948a106951fcfffd246566ff13f61480442c, 0x8369f1584cc0dd6e1f56c9342f6351f1dbbcd9fc126b86bd7076861c82f5263c, 0x8a7d710e7079a556a8827d0af042d0219e32051ada851a5f5e9c7b8aa50ed2fd, -0x3e1461665e9f2f96da7d42f3403eb059edcd03558bf1d55a7057d8a4f40ec80b, 0xce7d90c27d911279ef796a3c9a1a869014dc6d9a8a172cd9cce4edd655941bd8, 0x35651187bb259a5c4d135cd5284ed5dea1ad4c350fcc23f8dae8b09623e327e0);
    (0x4a024603fb5231df3417bdeaf11bcf102e2c3e34ad77a81267239c8c6260e6b9, 0xfbca4139f43990afe8612f4200ee14629e56baa72e07ddacd77d27d96735c38a, 0x6b55bf7e92e346900559f57b9a701795ce7cb76797f7f7c711ee315732db96f1, -0x7a4dcf75af9b9c0ae4be78f97e42a08839b0ff3175bf43dbf19414a9c109dc5a, 0x1565507f78819f9e9f880e12ac55e9aeb4cf751ae7d8cc11ccc2942b78409281, -0x22cce8c40f51ead19b38278b7d04f9cedd97464b314294381d3d2bb982d4fa74);
    (0x3ce2c7576edf22d5009b031a3ed89d29153c5739ea268f225a88b45f183769c2, 0x6c4af09a207a46bb72b69d68e9eb4b7bcb4670c120cbd98fbfb24a74a0d2017b, 0x321fb410b3da819fc26d0cd636d47facc1f857ade597b85ec50fcafc75d789f9, -0x1eedfafe8d1fe80bca5b75706d0e5927693b90865a6ac29697e9572585c2d3c5, 0xe7b16558d916688cc331349f054f3c95e909d09627bd7213c647818c76fdf49, 0x2220f5079cd030317412dca548be990fb1d3153e12fc9546abd82d30a1bfe0cc);
    (0x7554bda3e72ef0534674711b2ff810d01b90157a115d9787267bd8a0a06d72c, 0x2bd48bec7909c3e6aa1725fb0702be6de94b36a5fde6a47d677d397d9f0f24e9, 0x6a0875b9b3afd6c1c3568ecd56335e5a63794944a9415680a278b7cfdb2ac507, -0x868ed03b8d07af1b604245c5930e1f9308869675c6b0eb6ade2003f671f697bd, 0x35c69164d15c0ac55a736a3243aa1cc56dcb9bc6ecedb76a8586fe2066221f, 0x1d8b729d146e52889a8adab65e57dc24f57de7324814b9651fac789309a4b68);
    (0xf9b01c949f14cb2acfd7144fb759057d61fa60f155beb28b34ce4b2d7d028d94, 0xb55cc57affe1d24b22a36ce87270bb52a504a98b3563040e0bda3fc29d39321a, 0x2d00ccc69bb8952ffdb3fe3c7d5475a67b17c98eb6fe4d42c5ea5c0004d7ff1d, 0xb85311e59fce69da9324f52febad56789e50c2cc119908011defee2f0104ca2b, 0xf38810c06d0208e582854a45eb82c4fb14dd6878d0933547e3f87dff2a65db9c, -0x86241cfdf1a87f393f5783afc0ec6fc03a7e91f4f485f600f6df46e7ddef8008);
    (0xf4942b2cc4d029a091bda35d2d02daf9bf9c3db413fd89b0729fe9e4d15c0679, 0x1b0a43e3fbbc0f46adb4c263c1c0985a9ee708b02d83dc95e4afe0b1950bc5fe, 0x230e72ffdaa403fddc2845b1e2af92097882b41528282e3ef18fe39cd6d5adc, -0x38f574252672b7ec36655d066e056d36daae5878d6cf1ef4ae23e28bee063383, 0xe9aac80f4a3871fc6453abd7da76fb9517407ede9687efaecae68f56075a6d4f, 0x936ff53db3d9aeb4f853dbbea738dde46f5bf03992e4aaf647056d7dd9015d2d);
    (0x80b1414a997a888be677c0144255e40d9870ea8d4bf1fe0891f5653b546399f2, 0x87804f805f28b2ed1845ef0de60344c616cf1d92f80adea53657ce476d55e700, 0xa938cc2b1bd2e90be12e8dcd12c2e9940060a7d4f52b3a6477b7977cbbe0b5e6, -0x65d90449a6bca9ef0de4ec1e41377bd95f8c472635d801c930a5533e4fbb6a4, 0x40b1bc05f349bbaa081e1f7392c6b34786e9dc108e9f2060533df7b3e9d1ccb8, -0x36861f15ccef976faa2850ddc90e2dac376c3a1681e65bd4b74e24279d49ec3a);
    (0x7e9793853c104eced575db440a7ca94b9de04ae681e07796c9c69bde5272ade7, 0x995e76cf2a74df5c110d231ef807bc2d9ebb3cb5fc2cebce485b4e742b6e7c78, 0x2d5f900b043a772755ceb66c416338500c798f50539e0934855dcf96d8b7337a, -0x2fcd6f784f216b96aeaac7467a3a75d61c106df096c1ecd55cfebcd05ac978d4, 0x3e998ef6834f3122c3aae6e9b109ad279145342bb98aa5eddb88443e2aa17857, -0x8d5ebadd4b747123c33dab1a6eefff44e6a333b9b8d31823d4c15ed7d5237d8);
    (0xb7f793716a365ef850f56ad0586cea2ec7ebc663d3861714168cb0a108fb6f5d, 0xc4aae7cd48e5a442cf791f0a13e591166634f4617588697ef895a1517511f2aa, 0xa8b345a231e243daa18dd7b669e2ccf92a94c9f62db54c0e37dbe5d017edbae8, -0xd26fc4019f5591c76307091629cb6c30871c5fea49fd1b1e46822d994d63d8a4, 0x8433e439ffa022eba80d2ead24d29ac4b5db18057ff1dda253a0704692952001, -0x1f1d8476c088a02e3d099cab99b61dc7e59938abaca3897c5783ca932c041d34);
    (0xd93df6df2efdd6071a95844086f1dac9b19bea647fad893aec8b0fa83d8a2225, 0xc0fb67a36285b5a13f0444ee217a68a99304962c764f87556187ecde1fd90154, 0xbc40a0355d8176db88e102dcbda4466b749870d030f06af66a1566aaa3d64991, -0x3f949c36c6ae0f0c065570da6d933ea20d13f2e6d33b3da2b2d06935d79182b6, 0xb85a1b85f2186ab2c8a4e18960b6e7a325253c6624cd9f99daa44401f6e23ead, 0x320a802e9f94e90acf203c169f19bba86182a46e6d9429951e5fedd158e501b);
    (0x5c909338278ee217658573f13bf5ebc303a6e315e18e979d903e442db82656dd, 0x7afe906b205830bd9708d1ccb2b39f690d9b8cc3307673afefe0fd1d49b2f5ec, 0xcbcfa1445c739ac50c65b1faf842f1db4985c41465b867380b0780c71bfe1ff, -0x12c4b22ad02b277c11d33b515747084cee643bee09b92ce240618d14901ec678a, 0x21783b765044bcfe9790c2ee3a9695473533f3666cef4691e7c54829d7e55adb, 0x194e63d0d1228c83bc728802f97142a1c2484b17dd99598056df0151fc975048);
    (0x71d735d416b21a760f7a0fc8ec8525eaeacb1a3673fd6d0121487df2c2b3be74, 0xcd9476e8407006e66c084a90104556c79f18796c7e781e163433b3cb0f11f199, 0x4d0406b02024cd8369fede58e3cdbd712d6480a4b31b12aa6ae903ef8a2214bb, -0x8e5fa7c43dce3be64094672246e702e26d3340a6a6260854d8829ce423b487, 0x329fb270b198dba003eb8f5d2a90dbe17ed27195dcc8ce1656cd1de8f811c5fd, -0x24b997ff426d9762b8a4edb857cd8213bff4fb7a61aeb7279809e7fc08200d42);
    (0x89e647e9100eb6a87f49cb66795e65652839f34d0a54c30ad527a6061db23e55, 0x3c06e1e866c4ae5defbbce4bd1f489bf442eb1ad7946ec5252fae86915689441, 0xaa5d424f8359b19d7d5e73b1cfc2dcbbe92b58e16675e3c58c2a0331304d6b71, -0x19c4c77f40356305eb7fe0245e88492d1f63b69695f4be9b54a02cda913505feb, 0x4a48481cbe2bb506f41d814d59db5f630ca10823909003b028fb21dd546d0c1a, 0x4e67b2d390ab0b76d07585687ddee0fd6221d831a728884f4a52d3a1278d13b4);
    (0x6998af20d81b3e2c2ce67dfd089afa237987d7dd2b939ae7c48a3e23df7317d9, 0x72e5e4cfb2581b38f10f1af82f6644c335c2c861551f2d3ae428086acce2548b, 0xbb217c5a66d189b57e526f9b8922e262285cda3516912eb9fadcacb7a6ae2e27, 0x625209fe44846a409e6a05d15da8b76403c047509f878b4fbff82ce902673821, 0x2b8e9ab96014e5060d88514e3f98a4d8da940a32221b082c1efc2e02afaee85c, -0x16a232241482d20da03ce181c7ddf29b7c1be0c8040087dfb886001062bf184e);
    (0x3c903fffc22939c150ad582031e6d718f7bc116844725c2080162fa8199d24fb, 0x73f452c58f8065288675032927c69a066aabf50a07fb25adc119750caa11529a, 0xeba326ba1d6405196aa79c9b9792ff61b23051a0576a9e326c41ce1bb0920cb4, -0x422a152dbf1f538c6e23658af35b4338e21932d43bc085aed253768d4479abdf, 0xe53ef47f2bda288431cbb52d18bfa37adf18693aefa509ff421732a26383ce7, -0x3ffa27155dfc32e3c658b750e6e239d8baec7c2ae7db56b2c9a11126c1d570);
    (0xa4ec274c6a29c122507507b02c76d2b7aff45afb27019c8b7185707099abbaa7, 0x5bd056e0715b3363e26d4849b0553329eea1bc599222783b9266b6fb94825e84, 0xc5626c8301f33a25651f2a8c75fb2fb8b0fa6405ee2759d6e1c11258c3b495ca, 0x920b8424180bd430978965584ac978fa10999a5ee64ed71826643abf70b222d4, 0x6a3f6c3262f19b97fc0405432cf1e8fac016407b2ebc323e548acb27f98e2317, 0xf8d523fae99240f0b6e98d1101dd80425045175e0bfe4c7177cddf4abb726e4);
    (0x38394c9a58d38a6316fab7e284c47f97ae8758bfebf1710b3e561de524cbfe79, 0x7fd51d2a314f4da5b2c796005b813ff83883aa03d6bf289ab7421daacc5ed857, 0x846dbef613ccd85f1bfdcf21216d66fb1815df33257667291e645191da50da08, 0x692c660e063c14f0c78a0bd5c5f9854477ab06ead00db21b04dcc5fe7ad855a, 0xc591e56ba841c8b91ad5ee709bc0d8786faf257931d1d8a874c1bd8a2f25fa2, -0x7e91b376aa5b8037b9bb957c1167108ed3bafc9dd3aebeaa2a9cfe0107eb603);
    (0x561a279eb1fe4e86a7e766990112efbccfe7828243e1f099b49e06ab08d93f05, 0x354a6b4f8be763de3fc68182bcc9039bd3729bd53c4902f3f4995d25edf67491, 0x165908d135fced29a5b43a216ad87bfde0242e27cef129e6f0d1481732de6090, -0x666aa1767a48c38b471cb6fccba01c5ac26584b172eded06cbb34e75eccc5a0d, 0x1cf5954ab1f4c10619c12e85862bb4510873ea10a0540882fab540d8c1b86446, 0x1912355eda4bbaadc49e3e3d73284b7b0c202f19fffb7016473c1cefb845a29a);
    (0xe2bb9e3eb60d5d3fef9b9f19828fde1e670aad4e3ee520ae698d1d55c74d42b, 0x20324fdcb4dd68faa429b11f3a678b75b70edf74c8dcb4e6c9b18adbeed849b4, 0x72f83eae9904a737b722d3b1fe70f9658b8a09a0a208acde2b691ce12b98241e, 0x3ca08ec8b4840c7bd4e2b605642b76d7ec788e3c222d7cc3d905871d22f5c0b, 0xc8cfcce74adf08404d81ea4924b66ff650e71d08afcd74fd86db199347c964, 0x12aebde17a81a7bb81422a448c9f9b3f640ecfaf23385ec2f0d8c2292ea735f);
    (0x14ab7c62aa08070d94a1a99fd1b495d913b0d9069366b6535e9ba2edd11f0461, 0xe04d41281db091a8cfc9e27d0fa7ee822ee1d52fc1d04783cbf5d922e30152ef, 0xee1adbc9aaaf59e0902638cdc09fa106ad5587b27aad3b1a07ad987265420c50, 0x66af798b7a34d704caca7d78c5c5d3511a803d93ad56ebcff873c35c2a996b4, 0x1ab3e4ed2d02291f1470a7a76d0ce69bcff31a9c999ab00ff31733eca5d93b6, -0xf82ca302858543cbbc14bb4b13d8d86fdc37e79b89847b3a9ec3318b6e49187);
    (0xbf57c4897975d35377b797cca8ccf70e7323da78ecd08b0149d94e0241277184, 0xd0b213138bfb81a679f9edbeba05e15c08c0248ba9699a553f392d0975240cd3, 0xf886402752adf284744b62a6c6ef4882e6e834ceb2e8969e8959dc347d4feccd, -0x4ca7be6cf3bb76e483e20e13af800c9c8181e5dd7a51d0a04a1dd172adfc96fc, 0x8f04155c4f912b3bd4b3e9f393d81d5db7385ccc883b4326e00834f88da81b2a, 0xbaa2119326e8ba08ed510e8ba55d7ae2213a30d843a16615f366c34fb7c881d);
    (0x7041ae0ec6fbdb7fb4d4a2633c8fd3c834347763aa3fab205793295e24f5aed3, 0x3883e4cf9c7bd332bb0fe35454304d8c2f163c9819ed0bf3744c05c569e11cf2, 0x108a4005ad059be14eaa787f389887b347439b66a6bda8e1a0c7896bc48f5662, -0x124709258b7ac7835dbbb06069d27ff6acb9951312eb3a9a1db0b95e7b81ffcc3, 0x31398926c7f5834df1ac0d2bd3bc86c785c996a8ec893512725c6507740cd07f, 0x42bb3f6fa449cfc9244c98149cf742f5bd6ef6b3f3dfbc32f4fbd1248d0a4dfc);
    (0x1117b56543aebdfac7ba01262b56c1d966f25ab1e6d44a0c5cbfe6efb43e0f6f, 0x6d086f415d7332689698f8ad3b942e0ad33bb5dd8efaae194ea797ae57587a42, 0xc5f98700fe9d32a38046ba0ef29391a0bbe8c289cc8b522797073e3298f855a6, 0x45aed1676f9d0777430ff34fe98f97039d767e8272bc12d9e01c2858ee8539c, 0x12428498bb7b86504020c99f7714ec378b0b396ee0c65c7db40acbdfced43bb, -0x381aa507a18592754c4bcf59a3715eba65eaad5534428cdd9f4713982b4c3c8);
    (0xccb0523b9a4863aa1a016fc14e9ae053242d2fcb3d9995d016b3df7168833a0, 0x6c81f36bdc0bf2aedd8497dfb29632076f5347fff8547cc415b0f98cb8db8a27, 0xed89012240ffbd9ef017484db08f604c96f0e1df8f91dec33aa9570ae5dcbb68, -0x778726b735f674da615f36494c1e95cb205f78deb292fe21e67118498dd3e234, 0xa3a97c802a41bf16fd8821878519a0557f5d330cfad3ef5162ace54c40c1bb, 0x6b874e78e137f153849fc3e72c64985e46caef6ff50d751c8b9c8eb79fdce);
    (0x1130ac19ef2d0673d4b73a39186e191f14831f061e1a1f236c546df89c9b8dd3, 0xbbc427233ba0c7c973038e21999589414f4c31a6b1498e2cb38e77968d23fad0, 0xf6559ca5991c97e7284234798ac0ccbe1cc4822aa9d3e8612eba68679eb8b2c2, 0xe387dfcd264cc92ffa21457f4032b4bba82fa38a826d6aa96bb23d0f89219d, 0x127801c6f3087c2e49c1cdeb8be6a1cbb6ce88d7a3e4d4d6f61a106b12bfdc6, -0x552772161fdce19c0e6f71aa7e6b0661cb58620a407c421451dd17ca4ecb29b);
    (0xf39f16c23a462a7c65036ddbbed64142573ce55d9aa6fda7fff7c58a74ec2786, 0x6977584412cf91adb971865fcc6d6aea48dc34e707183bcbe7543867dedbd0aa, 0xc6f7961ad77a407cb73feff5399325e1d59d2d5d538aa4c756ef6c33cc94958, 0x37b03b1b3010557ef8061e709d3d8a8b674c3edc41d96eaed3cd2e9d9134bf68, 0xe7d7681201eb8d315d33a132f42fed21dbd7f797613f8935dba3cb7f20ebd146, 0x4e520d635b10d8738d720a1bf1228395326a75d56fb5d9462fddc407cab1ba56);
    (0x23bf00831318e1988b0342183e62cb71d73f0151effd7a40362320b5cb99ca52, 0x523a103913faf1eb8d6d5fc900a6bf1f482b8996a534d5731953df4390a494cc, 0xeaa4e828a1f7a3550ef1cc9f4b3b4f2b81853a7df30ad7fcab68404ccab93b96, -0x7ee0508c7e5324597b4befb0c1435d2e9657473093a857b960fb9ed24bcbdf74, 0x4fdc8a59acf8fece485e8f53e9bcb89a52ea1e065fb70c9733409d257fcf91c, 0x33eb79e2722dead6bf5d6dc5118ba72f9cc6f656040d4ec3a39fcbb5e7add32);
    (0xc68bfb680b16f1d5f7cb3044f9468ac1a65dadc9dd0e5f8c16dbf373bf99c495, 0x9ada0de3a99b1e8677eb0623d030e934a168ef9594d60df05927e215efcb3eec, 0x7a29667b3d84e06207a83974d44eade6b188dca346a102b6beeae0ff464450cb, 0x1ea5f663b7d042d6728439be07e6b8d0d296e13c0ae37d0a1cb80378cfb4f986, 0x99fcd56feb08b9099b0271e9bac4e68e2b2cdcb6a7cae11c43b52572d46c0be7, -0x385374630d33d0ba5096e9841809dacbcf9cf0a0d8c20abdb32276ba16a389cf);
    (0xf9b791c2154055706183273ed4e73434cd387a0cac962cec3bb1db1b30488c3c, 0x2c5712bc0898e1487018e2703353bd079a62a54adf170f438710f2150036f805, 0x9034d6febed0d190db2355ff849e6721b60c2e6bdfa1332b1c320278cd8da2fb, -0x2aad7bac4ea7a3cdc7e2f2de0440d26fa0f90151015546dfde858c536ced38f8, 0xf3969d2d43cef765dc6af6d3f7eee69e70934e218e6a260759ff1e00d76faf3d, 0x6bcca4d70d9f90a0703d3fe45f14026c66181daa0d40903076fe5634e4a3da02);
    (0xd01d86f00d06f70b13a925e1b5059833fc5d81f19de4631c400c1c9ba6abdff9, 0xb85b6e3a9d4aff94d4e98168f3be58c6ef6468a2ef1c27bf4db48312cf4b9aaf, 0xbec780202e8697ddf5d59f3fe36e1130c83aa4330ae861573b4d67fb24469ed, 0x3eece18f8bc3618b83c1b9fd2658f79532f65033438cd501a3bfa0bab0b65d22, 0xa92ffeadeeae73c1b0cdd482ef05e58007cf53d473691176408a2be5866b662b, -0x71d3b0a2c941a129f925bf318ac4dba8add459e5218be65e1ae0c55afad10f5e);
    (0x54207debc13668a5dd21a6207812144129ec64705f03ede1f49e19ffdcdae7b1, 0x68cfece6b895a20bf5f90936d4253d7044c8f4c8c6077616065ec3cbf2582fb4, 0x5855f076dd8e8d115b26a8bf69c50c32d28a6e58b324a38faaa99e2b82d615a1, -0x1867477b937fb059cba7e5a691f60fec2fde5efc7dd54fba7b1772e37f80f9027, 0x1ba556c26fac1612707e8d401719cc7f1ae1fe6b407bf0e35dd491fda72782e1, 0x1a23df0010c6dc7dd8b4c40130c4d5511e01bb14dbf9a6c790a26c3f898fba93);
    (0xc00a637d8dd4aa472c229fb36484b615cf190591be4772f047af85244c715e65, 0x9aded3855a70e6ffdd523a4eefbf7c7beb5ac860da52522f2b5fe67e8fd0c0e3, 0x7c624364812a4cb8a0138f07c1b17388a12db60736a2a63f6609810e3cbee0d5, 0x3cb47fce872772c8f06941408a8b688e266b2ac80958db1818cc34bef4e13c6, 0x900f95a841386d4e5bb8ac224fe178195b8bd4c0bd1362a0cb76c36440fcbbd2, -0x258d35004bc884fc9d315cbf9e6297b9d4941b9628b1122c2954d1aac64e4acf);
    (0xffe17f72d2352a1f79aaeb6d408106b9c8e9f72a3d498d1d0accbdaecfabf790, 0xf181de06268c5d2a01f76afad6b4957586465ce7514ddb23c2e7e754c8b64846, 0x3c46da9f3e895014ff0fcba054cb343cc2ba21d422e2b3a772b147fc557d1f37, -0x206ba67a2df56fcfc36177579b8ad48bb52c826c899b0237bdf905c2ba79b7b5, 0xffc30288060e8b6f6376625b89efa450e7f3df3a0a8b54e9f908b8860018c74c, -0x5698b7e444770e1394215f39063d0d0356ba07b6437a1d44c11dd56006270404);
    (0x7bf08b31f58e1512dab33277d8613cfac6dcd827ddab693ccaf1dd434ee46ba0, 0x1314d0aaf5b888602f209380f29339e8845214cd75ecd1b321335cd0ec4cc2c8, 0xa2ab9041838dc6219acee160445de9b4a3a8c0679f92bcad5c4249f7d6e7956b, -0x27123f53fdd29095b8cd60c8d5a4877bb3b1a6baf9722becba15bd02ba1a60914, 0x3c0107c74b523d0fd8521065954c5470022d5e154f9ea998486f4afa4d537314, 0x6baf6497f46d7060d4affe16feb9732626cc7bf9dfa901e547c0635508eaa042);
    (0x75fe4f28fc8921fb176763a44c961699147c294ca5ba61bb8877d53cbe4c10e, 0x729434167a44705e8066417bf9c8ec200118663772cdfee18820d919255e3598, 0xb36eb0c64c85ec4c0b663250fce6eb40db0a053fae04fb8df589a844bf7490f2, 0x51af62e920b438e899d01c1c950084284e93e80530c8e2ad70d435d0dfe554c, 0x366270fca4a4cb9b7898cd82c12d003d008aa15456f0ac99736d4b2efe0524, -0x2c04165c620bb8426d63379140e9a66931491ec4b03eb33bb1e0833ddec0dd3);
    (0xe883a90176d86d4fef959b22a1cbeba5ce3769fc789558e3a5c2574dfa09059d, 0x93dbc61abb70b35948f7cd119a1a72ce0ef53dbc46c3ed3a95614d4a0c57dcc8, 0x65b4cef9eed27cff87af9573dda3ee6c99f20a28b39cfd3c47ed1ac1119613c8, 0xac183409ac0f4a5b191a7c22f3826750a296addd4b437bf9a22e909828d1da2c, 0xd32ee6090e7ad68ca73efcfd472184290e712ffb7c2c0847fb71bd3da528117f, -0x1e39f9ec035cf74b0c84e1c9c110c0a8fe54f9abaff19ba61c286cf21ee4b8f6);
    (0x9b49ae8f63770bfb6edc81e842b623ada54dfcbbf8f08eca53e6b6fd521f2d2f, 0xae8518f0c5d8137dc24c78b09d3a09eec15c39a358d75f7089253ea651b752de, 0x1f7182cc59926dcb412defe588ff0fe91ea6f2e668d2c79ff1724a648d54a3e7, -0xfd74d1229289094a220f9936a9e55aebe2f0856bc6931effc8018c21817f740, 0x5e324e96a7401ded6792b74b8e3ea732b04a74e9874f1edddbc443e355c7d70d, -0x102c319e3c94305050984f12a617d8fa19a658442ee50b056319a5ddefe3bc97);
    (0x6ca1a994717df7b3114f6c4b4c922f3b79155e384724c22b066b75dcd1756af0, 0x2c716ea60e7759c89db59ac617a1809eda6b08ed439c5f1d2df72f439454b1f7, 0xc08739aa095e93ab7d3d314eced6c8e59b83ade8f83ef19ff4f8d010405a900c, -0x14a3c1c83663995262a88148bb576715ff8eb0a45f9c37c052fd48750ce730354, 0x2e18cd2bfcce5d5c62d80fd489f457b5d6b3af8c06ebf72fed0ee45de4dc0743, 0x3732706006ce980f2c26a92880ba1c6c04fbaed152908a2d5827637ac6f436f3);
    (0xfe1841205037f9070c7d919a9fb807e458376ac0c4790c2d8b719bbb2b1738, 0x15127f57621106b11e7cc54d942374d2ad5ff0cd23e5b2fc428f7708adaa7c1c, 0xd79ee03cb3ab0fa015a8b966c204f8724e3b88a457f8aaaa68659e316303767d, -0x15a760121cae8c37eb2ab88edf2da20799ac58abc9b49e3437ccc0121a6637bd, 0xfc34238865cf897941b2627660589d6124deda85958a8c3c5d484bc84baa, 0x173268488c615a8e9d98aa05c73926b30e94c32fbea9a158e8928bbd6934d1);
    (0xdf269a77a6861a595bb77cc253bffd57323be6c7e54b8f5ef1a1f1f79f2e2f88, 0x961047a0345e00a9e178bd6e9520e69f0b91e3250f1801b348dca1f1987259ad, 0xef8f213282bfd98514abf6ea6c13779cf90d0ba6f667d2605a7507cc81da5e16, 0x172b3b3598de19a4291197c54616674a08ddcdf772757ce26be356ec063ad3060, 0xc28446eeacd73dfd150317ab197d617ec4868d3ad3b7f5ff353d660242011195, -0x707084f81e5c4f85b832f601c64a7fa00def5371495cc7f4419017989b122355);
    (0xb0ae8b58b6a5494248f5013d33f674764a581aaa7bb56f8d12f87a57cb4a2c79, 0xf40046ab40c34cf8df04199532d46c7fc8ffdeadbac16d48d10a9d6a18da9496, 0x68327af2728e28d62725f4e02de90cd19e1efe86f051f696f558e38b9615a8d8, 0x42c63a17ba6d2deac99bbd8242aeb486216fdd12855e2903e4c4f29a88d373bf, 0x79f0769bb39502804bebd66fd2941c065f8a6a26eb735aba3d2c2acc3e88458f, -0x40d50b98cf0802ba6e8f92b003f55c372c7f26f728e3857553426be5a8e0e721);
    (0xb3bb44c544ceda8b1a456876012077623a6cf5b82a589bc75c41c3c7e5ae596, 0xbbd7fe8e6948ceba232a38e5283a528f4044ebcb80ef6df68ccee2ab87c344aa, 0x1524d68fad0cb8af2b7a34c6e61ad3f3e57c684f20d78296d588f076140a844a, -0x2b08ca388f3cc77ea57fd10a81c27165ba5f471e901c2abbb884f41162055ff34, 0x7e2f6b2968e53062aaea3cc548aede1f51174ccc9cadf05ea8dae4e796b152, 0x276d3eeed0fb47b0f17556c8d383eb3334d5b655205237815f830827c57c7ba);
    (0x20b3f5fd0b63ebecf438a403898d7aba04e32f7530108df7891a935ee56d26a6, 0xf970b779cd43ada256f1d6a14aa626f355c7b9b7e79c5147f319875882328d48, 0x72ed8de084e17aa43550bcca1d9f4a95b0853e7572c7425ed30a153f1d0e8c76, -0x19818dc9a92dc684a544f35bb1885c7d116521bc93accbc724387c7d725caff8c, 0x42d7c012f153aa3f0014b4c10e7546926ffb8d15914f82410d52f0aa53f4978, -0x7de6416c4bbe65d9eb8ddd3282273229ddafe538e8953e8cc785199f41d870c);
    (0xe1a2fad4a1c8a92181f622aa19a18a0d1a9bb0564ffe0b005385328276763ca8, 0xc35a610ce1428afecb7d0a72d346d3da2b87fbd3fe55ee5e11e4a097f40b7690, 0x9fcdd386276f4ef476807ee747382d4843e32a6f5d20db8f4f18cd78289b598b, -0x708d0521e5fa80925f8e977bdcab268dfbbfd162a56be34b5a14af5021755dde, 0xc6dfe4ac2f4377db39c6b7cbb543f31191c25403316a6b0b27b077fa394e5630, 0x2fac1117296eba600ebdb2d7863f2617d70cbe83da47c0a5c67cc208090cce71);
    (0x11359fa88f185b6dc7bf2be5828fa26f4a235c11dfaceafbe1f0b82494458f74, 0x291c0a88b8d385f654c2331fee937437458fa5470059b694c66e58dc5fd4618b, 0x2f165d4e7d9399771a864240ba9cc1d9c72601797f70d1293cc3e685c7d4d917, -0x1a9bc26a07eb7d4fc896fd466f1e93a75f50bea9faffa1c7a196b1f1fb2580378, 0x1282a6fe25f4cf6d182afa836341a6e12f918b3285a81911f68d80b21ef7e2b, 0xa5e72d8f6e8196b543dcf59f5ddf4e9a94b007c50e94bf3ccfdeaa3a35c98fe);
    (0x96d3acbc0b0a0a7ee96075eb45566ba7d80f250d3ef955d5e5f8c591f58b8f7a, 0x11f39a8a9f0042ec22436414242a237ac089b8891fd5fb29f5ea6989aea3654b, 0xb03f994f4045bc677ae70ebd1cf7b0a18dcb1ab59738b31d663d58dc007a8d3d, 0x2f81ce1c6692203359cb9a5150a834dadf5898fb4ae1efd8b2ad395ee2d5263f, 0x58dcbd728f772fcfbc05907e359d9829a6b9993f0bcfb2873aec5b451774382a, 0xda4d7935f81afb47d9aab37e516f269affac8f525b31755a6e334cbe5ff4b94);
    (0x8b726f3929f5d9aaa0f7ad16149b811c122f4798f6993a0494ee0acdba0591af, 0xda823deec62cd543bb3b91ac27812a5f68df1c405c64aa0103fdbdae00914a4c, 0xb473f244ac22470ff5eb0345376eef887a9afb6666e1dcc9d5046c90b99206e1, 0xbc3bdb46fab3fb0d433128b1f852daa43f960f07eed5f30e31893396797dba75, 0x4bf577ef52ccf87c0fe1e3f199a99887f06a795f25869031a2156ec83f29b071, -0x6d3f195ec558e6cbc5e4a6415272ba44afca5af817fee8594bf9bff2d51cb7c3);
    (0xd989b4ab88851ee223d4dbfa6a182e18afdc08baf80f8de2729add565346ffbf, 0x6ff6410b7583c61152492020591fec0857c93facbd9bc56516fbd4b3f19a3fb0, 0x460f3958fedd92e1e62fe356104a504585b5fe5e1ba34e1da14975f357a9c905, -0xfcd787b243a46d4f3c41812f49a117cf0a2e4f04effdb8722eacd3756d31f6ae, 0xb8dabe5dac8b77c14cdc314a8e5dbed2bd0276d557aae1a2ae627239271aac17, 0x5a89f978d728fed647a09b8c03fc068cd92273265ebf56007a4b34a11593b3e2);
    (0x74fee4c94a00a4a749578c74e46c74cc41c757d65a2a9846d25b7aa50c47773a, 0xd865f69bdd98be4ce6c4c1cd8f801e6c7d5a08d4d75222c14dea4d992ea0d40e, 0x56c949c30c60cb61ae09644d2a4169a396b579f0323c946a67e408a0079fb9ef, 0x4786e4b72e9ca3e1285519439ada3dcabed4e1e3c1616ed3b4bd43142803eb3, 0x3577fd2136f69894c61dc98ae4efb7fd488b31d56e85c6d346407c71c527f592, -0x2fba9a71300b7e053d22e49ece09eb2d03530b89eb17de0f9dfe920d1a4081c0);
    (0x9d3b4aed8019fbb30deafd3dea2b7deb0648a0b5200fc3aaf38e1612763872f6, 0x1bad8fa71627ac709b73a575c8bf6282f1b5a6dc344c14c5ff1022317c55c5be, 0x5b0bca809d42f959fa9d9d5c2eb56398ceaa03e9282f1721d42e16bed69b18c2, -0x1ba29923bfc32ed32b682e68e8c838541e97623cb32fad208ac74afdd9d897a88, 0x6091c7a2ee871519195430d879a0482dad977d00759b252b88168de9259e9d96, 0x73e8cce03ba3bc4fc891e8ef2a561cf2360ace398452f7f7e5279e2f9b260e01);
    (0xc52e4043a28daf765a2caeaad53d62619b2b9f73d364a226370baa1fb2795af0, 0xe75b446382f3fdbef97ad7e066f0a6a290b6985cf9738c23ff4725247ad0409d, 0xa04910d4e56557d6f1070357fe75ea27961db4f631ac0441fc21b286dfda4e4d, 0x4873f3f7ccde2a6381f5bde47e7ea707302b9f57bf6f4c98a090299371ad95b6, 0x97e03743409e5e1c8a6dd267c710dbccd909d187a25da42ec717db86b3053983, -0x9ce1786cb68ed671293b41aeff4a90d06eedd35472397b3d4472ee5bb9a6f111);
    (0x18f06529a8b201354f1a6f16e2fd55dd10fe446eea2dadd990a64e175480f3f3, 0xd3fca2a47723a2180afb6a68e4b1b3b577553a7efda5bbbb8239e9beb845792, 0xdd49ffcb6638d3d093f54051d6c17e93a38b96f93dd9f56c4346971aa93e6fb2, -0x25406c70a89ea080908f49ef49ba42d540bb7f4d24f93580d5079aec2375301e3, 0x26df4b5a5b793e02febd73e6d8ee7d3a0972355958f0af8f2f1b0a9eb71e5b3, 0x153f63684894cbfaf251ce42ba7fad98de58804298787ce98dbfd05da5afe82e);
    (0x859f66f7e48bcc70db8e5cf898add83384aa98985e6fd5e90e5720cef168077d, 0xe360f742f4297056048a6775a3be3e2706e3e3834271e0fa9a10d45c68476543, 0xa2d2f0ab0a450ea9bf434fcbd371bcefa112ccd0dbb072e82479c5f8f0916504, 0xe4f3d8705b78aa7e1c157345f226225bde92bc147f37c7443c79be93f74ed478, 0x45bf043ea4d1a23f710a68af9727ddd8c28e3495a1e90df56e3ad6142fe6b8fe, -0x6fc49129653347c1e3ce89d180005e4475634564c9117d23b95905dc46bc4f4d);
    (0x634a050f65ee0c6c10462b2d2f3f1fd424047a6d3650612d354cc63071c0ef60, 0x714273dfd9a0602bdd4e7126466bf8ff5b864ccf8c1249b3cff972342ee6647c, 0x3339a35c30c5a7252df5dae06fbc2e1848f959639491a0644d8230e797a1a07e, -0x1df92032a1985254558a0101fdae502b9cd7f58ebc99e65686c5e521ebc4fa855, 0x26825550d5d6a6232a070e6aecf2e5eebab9793749775e320be0401c83184562, 0x2c42cbe2c3b376f00e984e7b06db01ba9aa296ede1ecde5d5f3d9002c4441642);
    (0x1403b244e30404e6a83f6b41883c641245c48bcba4806747912ecfee9bbf2065, 0x83a50271868f3fa9bf4b0e69e80284801e053e1fda075c4d67f2c43c6b8946e6, 0x3343ee5ffdd5d68bb2ef0875ea8d706f1f58bba7a391635b847f098a9b495683, 0xa9ce50bd8738c61c5b606ed7a4a6b17f0f9fefd95082b1cdec3cdde32f78ce, 0x19093e86d39d11721f5578189587c97dc1c5907ad3caae4c33824206dcc4651, -0x16ff71886d48781fc7463d29a0ed7c0ad6ff0573e2f0d4c7073d4a6e5e7be9d);
    (0x24c6801fc4bc3f03d6d9749076a81cf830e086decbec6bd70fc356162ead71fe, 0x418f79a5b9adcd09b5bd9bda549c23365e89376f072318c7ef286447734f9490, 0x9b63ce2bb56ea036fb381cf07c95c6cc24be39a9e2aa135a0e3bbbe8bc556211, -0xbc5c45249ebc2a8bbcee2c63d8f5c433f5aebd8f5b2a4da3fbcc314f32e3d788, 0x5486df360990d980a2965daec34f385a601c6e41d2d4a96203204eddc4c12d8, 0x97e44f76e3ab66c7aa4237ea29fd8d31d2b041d7d1c4b5d710438489ef34d40);
    (0x6a0ce7df10a60b9688755661c72babe9100f230a120d0ed53fb4cc9d70d07161, 0x993c5b0bc74ffdb80a2315be3088f3eca83f21cbbe7759375d5447e408d02f00, 0xc79d5460974ae7fb049636d896fb394b80ba268e3eaa469547d6dc4d83361bf0, 0x174643285b022af1fe8b5b7b42c7fac62228b41a517f22b179e365e7bbd80d6f, 0x2beeb0ab48b763936a64fe346939b57574d86ad81dda39e077fbe837c9913ab7, -0x245200d8371ce61e3612252c5be3a9029e57db446fb5c4ac868bfcc34d42b35f);
    (0x2977dbad0408712157475027518a67dbcb51e8f0ab9d355b27c05f24c7e3df08, 0xe406e96ff0ddc0cca48f2725c109379c543251566b7d3c38d065564f62b6bd51, 0xdff8a6ede4f035188822cd80d321396082e206aeaa47842f2a4eac0db13d1cc9, -0xd280494c44df38c9a98a045ef8909e3659086d1bd2f23e389303f142faffaf00, 0x6b79c7b62a5edeabffc322d64ffe0f2c822080f71c27d11fb9327ef7ebfc341, -0xc1d75240f168ffb803c4cc425b90bfaa4c1018e97f3ebc57870fd24ef7d648f);
    (0xf2053b2f7b1ff3a2eb6b0272ee5665449f5a5f93422966099b0b9b09f47b8b6d, 0x7a4a3268e37d735b45d7c95a140a54c1d9b763513c41f714eadbcc61eb9e3a9b, 0xa3fa0967e324410b065f69d6810957b06de199aac5ca4c9cf9f8128c87bf162, -0x647ab7c4c4cf77e053639ea81043e53c03f646c9c4c2c19ddbf83409e3b2ff8c, 0xe4cde4012252236eb4b3c9409f1111c603cb92447f178daa8d275eb3b393af2b, 0x63f68e26587764e34ef35fd2a99e5c93a9c2f2ab8d1ae5c13d7051faa563461d);
    (0x451c6adb91e0ece271669ca20d78854c40f9acfa53e2458085bce0257f89ef9f, 0x466aee80eda39d0eff1398865eb3a6faf411d2f979da9a10bb83319b4d61553b, 0xc37e4ffebeb5223a273387b0958c02aeadbf7d16f860a316648d3cd4d6426881, -0xa9b7d59cefb28308908270212b41db630bae561abf25cfa1c5002f3230415461, 0x12a854c1e945ba0710cb823089eb15066959346a9ce11ac23595c9c9684c06b0, 0xe00ef5fe24ec6a305662940151c5d8409ef117aa69e37cc49d2cb2c7f5fbed3);
    (0xc5b6d1e32db71f500468734e94c6c20550bdfc6aa0fd3482799808a9f5ea4ee8, 0x25f13feeef4be6c0e3357407228979e390301eaa49d9de2a0841cfeee1fc34b0, 0x26c3339af32bb508a3d9355f43efd440ebb47eb89941582c8156a1ccd1b85617, 0xf3dba9fc5d611765e7fa7801e797edd1506cf44d7670178cb438e67aa3fa130b, 0x98b2e196bf7590d0c89b19152bffbd72f70b139f2417eb62a118c6386bb6b606, 0x1914d4789dbbec643161cbfbe966e57d63ba08feb782afb9f7da256940a744a0);
    (0x7f096dbb2a97acd5825d843686cfee68220b76662052bb7a0dce75b0df4b8ffa, 0x6b39b2c67186039ca4a762544831a45390accc7b1314ceab742f31c1b8cc5edd, 0xcd07972dcf8143164d50041ee62948970f2661ef4fe5bfa343c7e89a5bc2bd10, 0x1599a8aac329e68045b89825a742dab95b01036b82d6b50829669d96fbe7fbd4, 0x3f0a5b389a74674268366344e4237293d21e6541040647cdc0dbdbf0870339c9, -0x22617e377386fd9475a1c35a35957c0d98b772e7095f89fc007eb9c9fa4a4837);
    (0xc9c4902eab0d4e38acb47c46f0fae78535cece6c894ee544b130d46a5104dafe, 0x202bf628a9af585e0afa9e57b7ef2e2cc8a97034f57aca9388e6cbdef6e6090c, 0x1758e0f35c6625fd2876085e73142beaab2a659db3372aaed416d120ce7f50cf, 0xb7156e2c6f7f5fb8e1aae923af173e01c8e7fbe80f697c98ceb26bf5b28cbbe, 0x9f06415661455a25a90e855f9018b67ff5728022a4897932e06819015222f3ed, 0x3b2769e1b36b4530b1174e5adcdbd56fc847e2cd33a37336faa4dc8978935bb1);
    (0xadbd67f875522fd399763157b3768b0f740f44d3c9a1929eb16bf993b1dbdb35, 0xd3b9199f13ff4f34d1b46aa4e379b2d1a821c1325d87a2ef80c9093254680b07, 0x1d918c46cdb9c3c31f45a4825a056430b4878e43d460f45cc2901a0eb3422fdd, 0x138f9cf78e815a9c4c20189a4cff0099ee2fbb2ee098fa5699e1206f03708ada, 0x75e98aa87da82f8a435780c5eb851b62d26d39f7f388ea5bc6286e4f5b7f0946, -0x79db3916408cac4b57a1a1a86d2d82ef10988747d9ca03ff4057085462701fcd);
    (0x3f5725b46ab4673e89d867d0a17822076a9df0d19d3bbea56e6e43b7fb7f212c, 0x1f00fc50b8bc4133daa15e0306fc712679828d934568d72ce7a198bb446f8246, 0x75e11941f9b2ed0c9cd6b6cfd537660f1a3c4ef7a61fd40515ea97ddc22cad4c, -0x164353886c023123302ec6419731c3a47075554b627cf4d648158edbc72cad41, 0xfac023972b2f76d545d5c9ac9579cf487fa4147f6db4caf2c41b415779bde45, 0x2cb6d466371b08fe21e07eedf2ab3ee2267b55a9991c84b2399702f0f7c5eb6d);
    (0x771422782799456f079efcb4b331bc198746123fade5e76b65b578e3788b1658, 0xb3a1043dc7cba318ba42987ad57c8cf6a41db61987d5cfb71ec38dab7fab13f2, 0x29820ce8273918d35f484af723c00de3ececcbdbe67190e6ecc1fee1d7ac30c2, 0x626619102a627664c669a78e12b5bf9740d6e9758941b257bd34b5086a49e16c, 0x3763b9a11c3ad169eeb1a4d0c0dfbcf2c341626518b9055a60a65325a6749bde, -0x45221432d393e3fd95f80e695caec45b63fbd8e8ce299533e6adc03cda950832);
    (0x16ac22f26eec239aedabfb8f872f3cd39901d3120f168bd3f8e92e3d9c6e12e1, 0xee12be5f46777c0fac8a34f30e053f5a87a662e9c063c4e70f5c452d51dbb91f, 0x7917a82ca3dcad9dd7e5a02b5d6df247612439fdb1776eec4527bd1bb0751a37, -0x52065b74c261edda010e15aaf69c111a13146b866cd2cb2684b8452556a59f0, 0x20209c0a59aee7b19012ecc8aed3d393b42c1c1d4b58af016fad24c0c6f8e68, -0x52d126262f10d8a766e8c026e6f49bc1161ea5c06b9e9f9708eb0a2534d575a);
    (0x2e5a5e98ee323a356e339ab82c508bf1b6b431054c9f7d2c1bcb2ea87679b70e, 0x15ec1b5bc20fb116340b3744c01ced74c35ef0f4212b7829e8a0764dc38b29f6, 0xddf45b8ee6c0b94a23f0819435a7aeeb6874812147fef1e60fe0fea0614792f3, -0x26c5a937916c266b29140aeaac10a4944663b9b5ac0db0a82f5b97194b4b103f1, 0x86499e59c163284bd31d259df56571a1f49e4e5e51c284466d43106def82c70, 0x27233ebf40f19be9e3465face9e4ce68cd7ac769142924c7f354d143c4d1422c);
    (0x2a9778378ffbf2d9f20f7a5953b7939977192738e43d3df1cdf72e5244dc5b66, 0xc55a239d86a17311344f40133418c6a2235f6ff2601bc5365321b8876df78f47, 0x7563c7c2b17a067be229a990a4d420fec3e3c831b15a61f2c4637a1fcf3a1ae4, 0x44391205cefa1106d99bf7878f87c81305c937a69ba8b86aef24fcb09667ff08, 0x7160d11453ea9f36372c041c4620c17ca80defc0711b301916c63b90a5d0c5f, -0x1d2fd9a3503893fc5a93978e20f35b7a0790e830b0f3c5a9bb52d8d7f89bd273);
    (0xda781a5a2df9528aae39b96b9ec7fc4adb24843a960747dd6559c6e21d73fa92, 0x6696875084a6b8dd6eaecefddd4208c4821910916f48f4ecf37c3c16b55045d9, 0x9cd0e7b7e160491c999c9fd51acaaceda97080640b2d1f4eb4c0ba68e26e662, -0x1000f79baad12d6a907ca7fe4259c3eac42fd256a5ae6b83adee2c19ef10a3b6d, 0xba70c53a4d8e2b6c931174a5c7360b501808cb220af04e402635b4d0ed80deb3, 0x50df088c1771e2a815df39f3e1b778b9b18c354e0bf2f82cd12ec6c234fe206a);
    (0x19e763053b2b820a3f6eb4c14d6eaaab7e42465010b1a2133f1999bed8544cf1, 0x73118efdbce5f1592ca276f04845a4a9a9a87d0d230118260928e1e562f4ad63, 0x8b7e3b664126ef10a29e5f55cdd487389f51583ac6189a8af4bac19372b040cb, -0x7959208bc9873546d0c01372ef4931f6eb942d95fd2f5c10e8fb3c29b53544e1, 0x29f027adf4c53c9b2d62fe3bad6abd5650d401e865f60868a57c593ba2dabf4, -0x1434b97ad0d8a78c9241bab51d0c239ce42222563ddbda0cdd7fa21e3422099);
    (0x7053a23680ed9d8c89b637ffe0631245a5391bb270a773bc2a359031f98313ac, 0x3a8edad0b1ceedb4f103d47f0e462077a345c31de266cbe36e3603961d1c0fb8, 0xb7e652da4719f0720cfcff28439df6a53169547fc892f9978a21127edc9ceb6, 0x2edcc8d35c4983ece64e145e86fcfd247396b65daf92266594a195d80c4cd81, 0x3149494246f08ab682338cd68ce4899ed0e12232089c909183504fbd2919ceb3, 0x18cba502dd80fa71711c882398685184b0a0ba8d30264c90c47b2422aaacde0d);
    (0x91467eea734c55430ecd20b97f2372664e80409485e5156cc9895af7b3ac09df, 0x669730848e1eeb43ba84b49c287120c1f5e3b4b686e12076f23990cd969f7bc0, 0x2b85c722d688c98b218c764bb690f2c951862b5b3874ebb7abeb2b36f0bac940, -0x1b239d779f1a677e12c9b6a0b1fa18a8399b88d27d7e251d9872d4fcd2802414, 0x5270ef2f3dbf268ab6d803c5fe30c9d4d49cc8e4f7e70c338b96adba2ae4b2bf, -0x18fcd8a6bc9948f77fa35dbc6e999e62b5d66f8b58313a4a148d31ec183bb272);
    (0x574eb43e30ef34a476fd19d2af1efd2c3105aaf67236313adabd60897f436d70, 0x45698f657a0b6af540298e438fdf80b43139927988bd867ea995f871f94f6bc2, 0xb6698c5605e8600c247fd678f00c06e91b72a662977eddebf5006965b04ca78e, 0x68836c6c606bbbb3912531d00e64e8c5e5b6b020d29f0932c1d27d665b92b78, 0x1dc696b49a0feb77fc57e40780dadf8b6e6c15ebeee553ef4258dbb461c074fa, 0xb50b504cbf92cd22b9746cd28794214659de5f27d3ec01fd842dddc36e6824e);
    (0x37185b051fd1e7596f7430bacbdb19620a7fe7c000b9c532ed8d0f23e8abf58d, 0xdc371d9ab0825ce111914d9c882b40f24679cfabbc3568f50dd494a63aa74a49, 0x3f0e014700f7dff0505b92045e0f251c33729e89b0675ec1e5f4513a7be8a062, 0x160dd752add7e7a3e3551936679857f699ebf185fa7c8261043b311ae00dbca0, 0xbdb796d64fecd7d4b49f39795e5b81dcb207f85d22f8afd0a1c2cc9a2e3cce4, -0x20748270d9ffe4d865e45e6f7015f371f78a15f16c737c1834b953aa79414fa5);
    (0x9cdf7ecd62847830a4794937eda09a91af47dca6a460fc74376f8c27b22212, 0x4b6deee888639ae8e0db40ef9397beefbd85678f375e8cd1d2fe5f82f35023fc, 0x4acca5ff2faebf21eb96132a89541e715b3859bd840afb48b6207b3b785c90b, -0x237ff0d146613d9a34a1f21be1a7a8f37c644fb2ecd62d9d0ccf1e056d9f87445, 0x602125a878b1e70601946ce9efe2283da23570f78acbacf2c36a05e71f2a, 0x58b8ff6b6b71b4fd90d50ec436df509711c20e6a50f35ba657da42c7babd93);
    (0xace60e30e69c239dcd9e9b38d02dd6a7c8b65813c48a442ccc095db017826104, 0x37bc73ad435eed91a7444351b5fa55371194760dfc9f84d809025c1c45ba1dd7, 0xd04909ce68b49ad2b03323d8c259ea88328347ba2050635e3c635acff18da38c, -0x3c5c34a37066bd313d4fde03f80e4ab543c2fa7f2655cab67e7bae7c3cededa8, 0x74c5f1cf368992fc6a0a2678b1083698bb4fefebf959cf355cce7e763cbb7c8f, 0xd4cf1580160f729490db9174aabf3b269f89d43ac3c434f2cc90902b8e6be93);
    (0xa4a7caf30591c2db068a636da8b62a205b1a2a117b26c502daa7838c514be08, 0x3799c9120020dee797147bc474827081c6bec0ece7411997004de3addabbc097, 0x295ca706c461c03ef095934d8fe3f25c41502a0821dff72fd6a672deeb892ae5, -0x13a8a36a098e317227addc2005e570f38d3943a9f8a1a7b1def3545c76512c7d, 0x69e76a01c9187152747c6eade78cd60709b2c007bf2391167791dade6b65f5, 0x164c043de3d4625bfd1228fbd725b754e391e20afdb852052649c50c19ea1);
    (0x4e3af04427b4475e4fc536894adcc223484c229c0fa935e0abeeb010fb2ca532, 0xa9d89c9f73d24d72a4bd67dc4efbd0f434e205d31997992933aa9a4bd4b048a3, 0x1bd709acd9c0de911bf095ef69a5d495082c1672c7dcaf3c5e11f5f94fa5a59d, -0xaf2d0ef8688301cdfd7afc5d22985e6829fccff9e039b76e933e4b4375f6971, 0x17e7f7fb4893b5c4f3177ef7b3ae8e93c1247f6ad82be4315dd41a3e69ac3f7d, -0x22e971ea58091a2b4bdaf98a520c902a685e9d353b5cfeb293862cfb7b33f646);
    (0x95bc6bb0747eb8e335b650026fb124e60ef65210dc29e2cc5fad3c761fd06e7d, 0xe2dd23fc9bb5c156fc2ffcf10ac0b33b4097a368c7590a492394ed5d629fc0c6, 0x4f9761687b417893e786ee16e45cabd65ae8964251843eff02c8a226664ccbf0, -0x1c22a8fcc35df7a7d9ec6b09891f0c26e30976a0b7e32cfff0db0159e1f6bba6, 0x5794e009c013985a5c0c5a810905ccb0fef4a1cf0c46d815cf860eb58bbd4e78, -0x21599a18d243f3f332984040664b863b7d8a78e57b2f6bae0c1408be59f0089c);
    (0x31dbd783a902c78fd78976b5e59b437cf06771135dad4da84b92def129b08d45, 0xa64e7f41cdef052f0c82792df983f79c1f40105b41826fb5a53b0ebac0528bdc, 0x6c7a9b749950764fad89dd011e4d8e302f98792407ee6f968f6c72548145541a, -0x23c20f166b2cdabd8c2678231e4eafd57071f710c06fa82881c20eba490f1c5b4, 0x9b5e54ad764a4bf943de965dd951c1b4fa606dc61ef941ab341362c85997a9f, 0xbcb4e899e83148153c76b3883521e1c699213f96a6d95a902ec71d5462a6178);
    (0x9eef30648b472ab2a82bb76922c3c05e8bffb66f4e21ac1e3e183dd3dc180ec2, 0x8867ae830a5610b2b09e9afc0e423914ff1c210a0ab07fd7b7fe7d2b01d82f2d, 0xafd6533b3a46ff9a3bc97154b226195384fe4332bd54a114a1098b0efe6b3e0c, -0x1baa923be1f41b26f78b99fefb39e4ddb5f0eb76a95213f35960669bdd6306ba, 0x62ac1f3780cdc34e0c8eaed0bcff1f6b01ef9c4e5e9fae1525da025881def60d, 0x129064f9a462f53a4be48fc2d2acb52d3d83f11ff6d295e6564ea06550049508);
    (0xef464a33546723c0c9a84eadd24392c71bd353690162eecdb88d79052e1bf98e, 0x4a46a0687b62fadaf75f2725ba327d23a9fe4d368d0bc384f0c7bf4d3b2e90fd, 0x35124351d9bdec0bc5cf1096c47ac76ff41a51570bf5edef38a1ffd7474f4d37, 0x6ea7c451287db533b545b4ff8d2eab3efe55eb9025aaf4f7e9aa1f3c7400f77b, 0xdfa451d8812c743fe38e175d8aac0139654e35dbe6e993065c460b43ebb9af23, 0x3a11eb36a9dd6513cfece350666bbe7090cf1155d3ed1c551149720093ba3a33);
    (0x9ccaa5d654f2d154af5b9e20244ddec17ee355839ff401f99f0963b0fb08679f, 0x698597a1b0ebbbd98a6108955a6bcf0d3dd7044bed63ce1b17302bc819e6b47c, 0xe1ae8081c6702ca9bb7eb119119e4abc32dc0bca1c6b0bb7c863e9a033cf2636, 0x1d128ff7f35e66ed0cfefcc4944b4ef03e4fa7931b2e8b1a7af638cae75a077c, 0x60079a875933fb44b359c89e00550a3ba05d88cd670ba093f384a0b597b62750, -0x13231a93ae1c690886b6162df6ba95a6b525f7b854ee1129ee16a2572b18b312);
    (0xa21108bc2fb4654310704d691184a3772f38cc5223a4c91f636166dbdf1faa4b, 0xb642aea466ea321b340341a0491c58cf6bd0d9855883a93fa37e8493d5a04b76, 0x90fd24c6127953df00bcef74a36fede740c1cde25b3ca990389e70cc7d041cdd, 0x9b424eeb63f943ee4aab5b9276d6dc35de4df7097493838c4dd166229edb4ecc, 0x6699903055aaf36fb3e2f8b79a4eccce3bbab0726d19abff349f51fa30a7b165, -0x3094c3bc903ae2f1641612e72f8acea189dd60897ef4fc01138438d4bb9d497f);
    (0x8328aa86f09283391c156454eaa157e09b8ce845bb1675075745696e3856474, 0xf3092a926cb59dd848018ec2eed6d90b4f95cb740ac9638cc51e0a3eef153745, 0xda490125b12ae2f1ec34a9c73fa5cb628187171db55cf059a4d399a99d601b29, -0x17bff92d25e875eb1105ed6e5ec43e34d733319bd1a5a55965cdb9bb75748c25c, 0x4332a4fbd5f89eb8c652ee59175fe6e0511589f51b7a16e157cbb7f0e51cd1, -0x1f2338ea0175cae3a841671719f45d6e8026bbcdb15790ef21f2d50bd1600ce);
    (0xd1aa990cd338c70759b870bf58e1ea7cf17e9574e59edb892513277af563c5ed, 0x485c89af0286684ec91411d3bd6d5070e09910711e56827e7c78f2d8cf6b7f06, 0xa54cbb385a4daff91b583ab1e1b80cf6cf0da1438d38590dafd57dec062e91a2, -0x6356de3dd871ab7c9949e5811b049861851dfd5db38771f7ea04fedd6d5a27c8, 0xabb7ff96916b9180afc267aad92bef5956c575d544e0517e6197c00f0f98895a, 0x8bc8ac0639c6a63db90228669064dbbb9212082085ffdb6d62d1582565735df8);
    (0x721b060584e1f04fa089fcb0e5988b1f398ab2a75124f8b6e100e53f7bf495f5, 0x1ccc1130aa4cf0dec4486ed0a79caa69235d2af48da4ccbfb6260eda72222439, 0xa8829089ef1bd0dda8ae16d75a57a70ebf5bb3d9a7875e27854c79c591986f71, 0x55feb00353ea7ef74499b3c340609bc26416eefa1fa7233aa5a9d54b260350d8, 0x32dc14372fa78408a8d7a806022458ad15abdfcf7a569e47275948b906aa580c, 0x136aeeeb4bdf26c89745b9c9083b17f4ff58fb5bf67bc84a32173ce5b8e16e42);
    (0x74a4755329deed72b37a71e23f6e644de05dcfcd6acefe8816eb5234a2f1c5e5, 0xbf6a9433ed79e06fbf9515f7355210478096c44c5101671809b4226270f9183e, 0x45759bc82e7228e8b426e9d16b89ac79607d6f63b224deb8640f9e1e49c52628, 0x8fd70170e16b6eb72782dfeeaef962efb21ca680bd768a059bb7dcc0bdc8ec99, 0x352573f9e644cc1a200ee6b4ad860b942ad6e27694be0233a9f9710199e3fd27, -0x4a184b70ae655c603a48152bf2828f9c079b4818542e1d4dfc83c9e0d1da3b8e);
    (0x8fff97bd974a343508dd6e02164218635968ffacfeaccd08515921ae6f642273, 0x773655b8c1d5962adb4305cdf65f01ea093905b2da73639de505ec3f66c4084b, 0xddd3b69e578a3341831eb0faf7ee80de6f3260dbf8b3322e7142a81b283284ce, -0x15f3c89e00b42913c8955c436bcbc89e471202eaec363ffc330519b1d794a19a4, 0x50ff8ab574a98109881f4fe4958502a31a527647204461c0b1518b3918cb64be, 0x289d45bd5429c47dde9d4c0c7147dc301c9bfed45acd62b2c4a4012a353fb23d);
    (0xd3602a3f09f81f94af3b1a5de28bbe3120129f74fc709d11a696cf69cdee5578, 0x29a7183c359785256751be333abc9a0f4f18c5a41800f8ec810a26890aa81712, 0x234f151cad2ba0e4ec9287baaed738502e5a26326ba520de4210fcfc45b1d449, 0xc7c6f95a91e6893e0d6fb81d96375c542275a80e028e92b87e3faae34046f1db, 0xae87a9c3a0af3cf21b3e912dd5e510080f6652c39827c68a7683cee4340baae8, 0x400a32314fa78574e89aec9b14980eeb88158671e3b196ae751c2ba7c7f1c62f);
    (0x620519054dbc1699db3e22af683995c734f56278300d7b55c81c04e49b2d25fb, 0x33a01bc2d1ee2622b3ec932538555ae856ee23a51947336a4fcf0da15a008d4d, 0xf7bbf8e7476d19d7c92c5ea0d591d3dfee1e5ef30590c60549dfacc08398c0bf, 0x1eaa843e05db3b6c00d9d7d133eaa8d5ac737a98f5f2a0c035441a5db611a27d, 0x2587e7420c2b13f18b3bc19a1bb5f868a02765c9174e41ebbee3e797f871a77e, -0x3d186301fb6a807183ba2929f63b2383286f7f1be39a07750720177d61be8ef);
    (0xa214d57c7da42494b13008943584bc3b34f4e3b898d331af8251eea51db08768, 0x83ecac9cb2b009b3910caee8c66fb6ff6fc02db2434596132836207968d21bf2, 0x39f9718954b7301347be8cb3c45cb406f37ee7c74424f8fa0085bd3c8ae001be, 0x11a76abfc55748f1990c27e310e8a32d0a11a24d51adf430140fcf9058990e35b, 0x669e5fe39c7fc58f01090e3a987961b9a8d65722644d77bc34739684c61d668c, -0x32d6fc9bf24491f23a0a6552258d71739ecaab8fea2a2cbd1df9bafa509d258b);
    (0xda47be09c4d6f566d1a16b2c6c14546b3225d23cbe4975e4957c37676d4c67e4, 0x39b370abec0da0c89e4955287fb7b5e2111d8f2a84a718c16c2ac6183648ec4, 0x3ccecdcec31d335b5ff807a155151c55d56c3810e77fd507c4ec8e03e1db1ff, -0x6916e697acd788a3ec0237c0f4106e7c8ef28e9e2c340ae87938fdb4196ae6e4, 0xba1e43c399bbc9bdbecaeebc1749a9210ecc815091831e4b84ed1ba8169ea818, 0x6d6953f73ffde8351203c1104784aecf75f260cb6e008345500b44a25ed222b5);
    (0xb6bc0902d573ae89093e4695ba04bfafdd9706db39342ec631ebe7585ddd7ae4, 0xdd904875f66bd28d03a1ddb17ee559cd80a5fc1315aeb1fcf537757358e1229f, 0x8f71851509adeef74cc8e7fd3b1f1b733aa003f064ad23c76e57e87f65af5fe8, 0x5453c9bc06d358b2eb15a2a5f35694c0c4b4a69e1f312f1b61d9103e809e1699, 0x826fe6ed43fb311d5c78315565d61a46f5ef1c6113a1083a61972752af00f0fb, -0x9b9452070b92bb338d4f8594446808819b21fbb2084f0e31ddae4f62c70cc47d);
    (0x86bd08345f03cb1827a1c8f6df509ed9985af49565a673cb5ce1ca0542f6cdf2, 0x2bd3809360ee8c53f945be67ab5981d3c0ebaf71659d47542fe50e79210aa5e3, 0x86ac5f528e248f3f1e819c45320c90fae4a30174b8e275a524b52a89d751ab94, -0x1a8489d257ded983819be6f8ebe4f3cdfec8282bb006750fa869c8556593878cd, 0x46ea702bf10f94de24a7b859b5b187aa142f47fbaec91eef04542bad758b24cd, 0x5d8c0eb26f174f55e005a7502ec0c78f1a9989f2e39afbb81a492229bfe63e84);
    (0x26c2f28684a89d20df65904deefd81e4497e256d43a9610207312a8e5a2a0abd, 0x14df46d62281bd4e90559b146066d3b6ffd97a2db0b98f7f8b208704508c7925, 0xced44419ce1393061dbe89928d8e1f6a4d944a9d07c749f7336eedc929194334, 0x124614ec45506c82665ac6aa0e42617d9c018014b83e487cd9d0fc7eb22ffbe3, 0x5de74746905b7b1d679b2a43e2f2c8f12dd4b3c25d3a01ea478ced5d597c1c2, 0x379bb64c6fd9f636aadd7ef3df6f1064709a1dfa34d8f6ab3e2433d1d165ce2);
    (0x92958f89976906fbae75087bbaa407b3da4a87110eca7b87af96f467facdf28f, 0xc836fa69da497dfbcd892d17b1e6c92e15d686a26c79b7009d61996b4ec39d34, 0x72bd0b35696b218a16c2c018ee4f867c988dd1da087920fbff4e866176148c41, 0x39c22e7a91d77c9f9467c07a29e2aa4b5876fc257d6d7f74154c52c508a9c997, 0x53eeef1957590d53f1ba49841c1b9a4b18f8a13cb38bdca3bc2f4a5a32953510, -0x66b0cb04251acfa508aa3efc6a05315c0cf383f4f125c9a009956a3dfb36380a);
    (0x413360415b43fa6ce019d76be457f4c55c34c6484aae8af06cfef76fa03b4f2f, 0x40b80bb47e1ce8d0abbcfdb202575afa046b106291ed34eb3c806ab767a04f9e, 0x79e4baf6db6d99eaee45d4a62da9b8638726ed5d1cfb0a622cb8807dc4a42bb8, -0x19b4fcbf007020496bc40a918e7f03c0b30fef9d658508f4077dfdc0ab133d4ce, 0x109b2130ae93f763860ea3243eea7611753da1c399540091f0f6b97445e04b55, 0x22826bd7cb9566fd50f027d6eafcbd141c692900d28b9a7d78ac60359c800f3f);
    (0xb9e90f9d5e183fcc35fc34851a1a24a64eef4203fed7dd1a9ef3593fe91de96a, 0xb53ab084a54e045ef4bd873801e02be301111ac58724805b8096c635cac86438, 0xf84fc8ab5fe24dca8c8b8db53c8009e04b456b60abfc1361dd9dd7e49aa64d77, 0x7ff4e8f28f6ae73bdc0775cae8ae25faeca72a0e9a40d631c39c9ecdbcdaf06c, 0x8702acbedf68261cab8ec8f3bd58cc33f87da32ed348a6f779664b4055aa5e90, -0x549c7b1db460705cca212a466550796080aa77c595a4abc760ab7a1726ef787d);
    (0x503a1b6e7c255e6a38408a176294c9102750dbabb908278b340c2f55f588e82, 0x1b277ad25fd2cd5d7807d9481dac1119d66b48a191ee0e678832a909f5b23da5, 0x7b8d5592afd91aad16373f4755cd01d7267f1f689b47462770cc5c57ef3cd9cf, -0x17729f7c38380b056b476efae6955b123ad1ee7d2ea8c8a7ba81ebf87d2df5d5c, 0x19245e557e9819cff985979e78d239c9e7a50257f2379c3850dec8b4bd5441, 0x3048f9a465bceaa4df0048bfa7ae8538007a7402e03963a8125a981525664a0);
    (0xfc263dc0593fa1a5b4a9f39d50dff1e20323ed2a53d8a132c1644e927561c31d, 0x1c36b02b617339538fd0cade52ded9cbf6eef2d71cd8e353c89b779825d621ff, 0x5f970ec1cbc367dd151c2ea7cece4f156073682e0a077feebbf3050f40c579a0, 0x5d2ab135eb9381040c584a8551dd02136dade49c016a4a27653d10e945cfbdc2, 0xf85b4f4913b500308a78f8f034323abe3f210e6e7c29a508d194e2b4fca8b283, -0x10b2106f44ced300a8ddfd66443b04ea103e245b2b08015c33fd467da5cfd2f);
    (0x39e53677a6cead0349ff1f18ffb258c7449e3b3b4180af99efa48c5c5434d92a, 0xfedf9fce949038c08b130afb554f37c1905ae0ffe9076f6034289fb5fa81e79a, 0xe1d5550f040850acab08a7dcbdbdb607b4426ed6e0db51d0707127b207f1444c, 0x21e86ad6ee214df18149609523c312503de4899bb86fe247f25f235c0ebd5313, 0xd17df7bc5ef2918b0a8e9c85b13bab09f8ea3fc7889c6542e5c9ff5bcdc5674, -0x33428eb3462287f85cb250c1cfc5805f2ea105bd41b7775eb9338d861fc380c6);
    (0x49e86f792392c1562efdcc3b0c8d9ab448b43107f7f86d4e0aef3d8051b7606b, 0xd77e0cdecd1d97b5d1dc520901ce5a9ca4fb6741869e8d8a10abfa0677000dcf, 0x374cb348f9e9bb29bb561eb1a488bda716793327009470e845285e89cd504c8d, -0x266f596c0a4ed85b7efb00d50c673c0283a67a3d54217ab800359cf3313ed85e, 0x1556629d5264726d7c56dfb3045fd6cb441e9b76a2cc39fc281fac08e4b495c8, 0xb5e94797a79c51860575943d926352a5c079bf24def04089bac8fda17631900);
    (0x11da755a1e15cdf46e89606a36e0d0b5a8f3be1fe4b193ff08b8aac82284c324, 0xea2a251604828219cc75032ecd7c906ad75a68c0e806361e82828e2cefed45eb, 0x56eae53b14a570a8c1f84751196661a3ab9cd298331e446bc972ca9a9b91e7b5, -0x2187855e8a534f3051517c186c11bd230bb633edaae2bb17b83dd0f7c70b45f75, 0x13ebe020b45a1b65419dbce549beb014afadb46bb3b5231bfb63244f2806829, -0x14d5cb783766134ede244bcc47eebd1e8ab4f58c1c400027f50b0bae4cff06e);
    (0x1242c8800ccf468dc371ce1e398178161170a41397ee5adce1a1eacf497dc775, 0xc6d0f6512fa6098df4121c56c4dd91e1dc7d37dd11265c0fd7835dcb4400e569, 0xb81e7f54a23e56afda63d54ae6583225344433c22bde8923e83fff434787cc94, -0x804e73a2a15c591986705609dd2caa7cd06b5bbaf96f739e92c9bf20cfeaaae, 0x14d759e00dc14dcfebced40428fc67a1a80b072e0565369ca442c305b7e5c03, 0x2857df7409c571396b5f2b13ac3560d1ef4c5319b831280f500f20ea207bfaf);
    (0x7eb408d26bbe3c26f8331346af392db2eec3c05758b4e5655a26b4dfee8a6929, 0x1241b8d3d09e6735555794d41648b15e186d8009fdaa10839722c63a5de31e29, 0x72dd568a9d658af61bb94bbe91ffe6c909319a944cc1180b1090ce868d4e4004, -0x118f6b9d960345983029812d5f2f2b5ed5726dbebd1343600b5ba9d97d98fe325, 0x3eb5b74b8a449a6bc85501e500582483b78e5cd44a077e4a085bad633cd2464a, 0x595d7b33d456fa860e45609c40b69a8f92f11e55649ddd274db31799a11bbbd8);
    (0xddba4b380277d5d061089791e9dbbda37b40626d4f6fe8a6edc1322caa906d7c, 0x2b2b9ab0f5744930641709158b2ee55ff82033267ea4baebf9690c579fd962c6, 0xdec7713ca9739e8670ec9a3eca3f5548b1d2d5eb05251e503752e5bbd1d8c504, 0xc31167f589e9f70d9fb723f174bf21cad79329b4d74e00c8f6a3271664e26263, 0xc00b2d7017c05affc61191a36631cb0a35e27de8587a2750f784003a5de38488, -0x1594093bfc0c16f13c9dbddc305bf04788efc36b85e123b0a71664122469de2c);
    (0x4ca2be22a6875ccbd19f83e24cd9f5ae6dc82b951609381f081e7705fb133509, 0x6670a793eded65f9e42eac653e4096c5b5f80b99d2f09797a6fba527b0f7cfc7, 0xce318a60efcf3fd4e536eceb86a55da111ca6c71c689c6f70f9cf41a0c6fd831, 0x6f8aa2655a26c4f3c5fa3218cdddbc7134fe6b11f08a9defabc38f588d82bbe4, 0x16f10859c3f2964c0c73096912a2b621ce4959e06ec35d131fb873e4ec725562, -0x11be2d8aceaf78ffe6b81b05fdd13702bc8d026a03428599ccc93bf718ac2722);
    (0xb862e8a1e002e9d8362746ed2aca974181ffebe656fe38973ae516167a151b26, 0x1321abf95fab6a82c2ad6e4df577e1cbd67ba9a8509dc5b4be64b3889b1b521a, 0xd863504cb848ae9046b8547adf93078a39b5e846c327a60c2cd73edf8d586eea, 0xde75686b05ceb25afc1a803903cea6a58d4d548915b9aa92407c2d3803395b1, 0x84ce549fa1597ec2a6e9096564cdee54116f9afdd491b40db3adde02644740c5, 0x3c00f4c7a9003dfd9a051401b2f7e3c44611ef7130a6c20a5a32de757a7505dd);
    (0x936c2956bb235f7ae56b254a793933bd1cf68de58010c2b5aadc765dbe271d32, 0x4fd9618f85badecc4d9a1a7070a3d736b4641eabb00ca51c30da0e07ac01b843, 0x18c6ae753f07a0d18d13609d50eb25490dab912a391f8ceff7ed098f3e6d5e6f, 0xf4eedc07e11ec2103baa4091440b88448cf87e5b79171f872f46cd11fe409544, 0x54e5652c82c56ad34c50d5aa3e5e979898b1531195543a8570a074ee7ec1cf43, -0x22f72493d161903c604ad971e94e75dd8d50c83f39739b037d350cb4e9ad9195);
    (0x282b52e974bb29dfb1e79f6e6bf77bbe56fe269c0f0773680e55880894ff80de, 0x6592349ba2b7d1cc68e0e8266d96d3918241ef52da51b4382afd19c64104588b, 0x27f48ba5321e520b67aad2bcf60226c3be92b07ba8c32b78df895f663733c40b, 0x692dfcece7e64b80b6431f70a6f2aa1460e31499ab67d01be44fceb00b4b523, 0x64d913de9c217a3917dd3953779cb4cbc4b16575c1105851f6a4663d62aac42, -0x3688e0e5a49fcf57937dd2ac8c12ece01ea12882b5f30501c1db1d354d34136);
    (0xcf944721c8b06b894e04922142a690960d2aeb415b5897256d5b6bc4f2e88339, 0xf53969f32da9a1618ad1f5bb792443efbe6f0f1078576d80f70dc16e954df0f, 0xb13bbb9aef7351d6f921583cde1009f3e7d556d013d45a10d7f83032cea55a3, -0x381a503dc0f8efaaaf0a2864bcd5c53595c607e10c33698d47f9394ad774ca8b, 0xa85120eaf5611bab99639de1fa59096ebaa20973e7f4ae3fbdebc5eb87dfb734, 0x45ee95e933e44735a8fd64d90e0f5f8297fc754a28cb65dcbf4536d1f3190672);
    (0xaf4ae369b3ab2fdfe8c6a9e987e0f1a628998b131aa79dd865dd6d936d4a4bec, 0x8a4d47b63566332646f6302bbe228e00a067e1eae334bed0b29b06bf83f9b5b9, 0xff584999fa52f84062a38336101512118110f19b740157411e9d73168a29c0f9, 0xc6ac0e985c835f74c6c842a0cb00902d4140c17d1a20cbc433f6aaaecd8fe2b, 0x780778d2c6c48ab2451f6310e4ae674b24ccd6892fc19208706b91e482da7297, -0x5434a97a1a240649ea48f74e13e9c6ae3c73e194bed463c1d99a29d91bc612ec);
    (0x7cf212abdc93de3675b45ae094c7b6fdf1c123b55eea89737984b966a8b7b1da, 0x5feac3cb03a9a9d6be016d6e50d529d50e3708706a14e08981c6b65d5f69d16a, 0x5c86f8d43988f77dcec3cef5891e4b90a3ad1785bd92c9307648ceca7eae4d6c, 0x191a35899821b3a6a8bfa28c179866d5498e2e6ed8ae22ac9b30028e97871fcf, 0x3cfb66fdcbf8e53a17d641aa8a2f68dbdc4eabca50c18d93ce42c2a4dcc381b8, 0x14afcc1e020623101f939611c8b867154d75ae1ec9797ff4a58766beff9234ef);
    (0x3e172560dec1f81199e3e7cc56b5a2cedd3a4bde0db15b3d8173a1b4b9e4e117, 0x35f75b14fd7c6adf71e26e877a7368a7948a92c6cf3792289a706868e40f3c26, 0x9e28c1896012aaf1a1842595a06ecdd10403fb9035c7c69a32b9125e9d439fc0, 0x643973090259ba68f033260532390385514a35c7afce35942b786523bcb950a, 0xf0f3832a8c3200efeb82c206e79e4da43fe8faacf43d875ac69639b3b526c67, 0xa2cbe5a8bc3f46de220b471c255a606d1deb3f0959fa9de45684bb202b51310);
    (0x7f20a89c0bc24248fdfc2400a92f659f7a14dbafa40195ca092f0757f5507117, 0x41bd042a6700e92eec6ba2e3b885aee3f8d4df4b8b6fb6ccd96cff3ccf675247, 0xfbfc7afcf60496bacfa812954a386caf7d30a56db391d49ceb0c969420102f03, 0x7af3ba664246774908894ef9f2bc24fe2a5f8c8ada6f5239eb05e936b09ffcac, 0x3f216b7569badce24a8a862cf032668e860fcf74e46c033e671f928a4c6e5ce2, -0x5d88f57a5f96e9ed5fa2e5c6a8885eb0bf7037a5329a20eb946ae4f1527be66);
    (0xb719872dcdf73e66caad7e4e0e008fbe8b5c0cadf81e8fd71a614279f3550d10, 0xcc2f770cf6eb284519a921cd78ae8b3279624f26324620d80a6d6bcb3aa9d89b, 0x96d0512426a3e10ea0a284eb4d0e236573b7fb3f3bfa51e6b5b4fd2dd1ea6416, 0x280e92ffcf658ff95d008cc78b3633451cf1812572c020fe3a2e546bc07e0b95, 0x82f581cf2acb0cedf849e31699a32e58eb32f342635004ede2d29714a98d2a5a, -0x63059e684d1788dc6bd3607085d11e9e2707dff52d9e924f96787002861005f7);
    (0xb3f3d46c50036267cd138a568a097857c4ff73d8875c6244eaf1f8480ff70af4, 0x7d7395a95975aa9c2c9d886ee9d65a212fa5376f2febf1d63b714b2ccfc54f3b, 0xd99a2a3d5a5da83797ecb8ccef388232e308c29c433d7fc533f26b5903f2975f, -0x1148c706189da7456d1ee094c48c089dd1e5d4a6ea270c4568d52949013393455, 0x7e7ee34c6dc8346330b1b7575f5e01ee4fa5291a7761ebc1fb197036b3a11711, 0x37585c447f2cf2b5bd0adccc4a85c549a2f9191a358011c63ea438c86d7d42e5);
    (0x6312acd5519680cc42fb133f74c1d7e21f04fdfe9d649d24e0e354f322e474ad, 0xf90a8fa7efef269e37c8b53199b7cb450c60ce5e32a600a50b82b849bb02a4b6, 0x9da71cd7d8b2426494ae9d6ac02b69c236e7730d4f5cc4c9fc91073daff4507, -0x100140da5a8044536532c6ccdc79e424f595221d91b7be607af3fe586ad3cbab, 0x26577309bfc9382b340d00171373eb169f9f5cf272abd55a4fbf80d84eb411d3, -0x2fd466bb74100b2a774948da48bae8a8e64d240a6ea42bb10d11d70feda1c18b);
    (0x85e574a969832589d206126d5824104f8c59bbef88632453719c4f91bb2c7553, 0x75c7bc9bcca892ce6db70dcb2d4b7875d75611b05be3f6acc4129200184f3403, 0xad2a44d587e8d0939154273d8c38afcac37e648ab34058637d1e12818e9c114e, -0x4294aa85d9e0df1986845fa1fbcb11eca235193d4f711cb4d51aa4ba134f9e85, 0x460838e1f3e3015db1755c49e0c3a3f3aae30b36b7f6ca3d1fe43ed52eabe2e8, 0x44a75e3d3d07b2edbe0e49f8f681dca076264f7163b51ccd0e69d9ad1a14378c);
    (0x43b4db171fbbba7465623b3b00cb89d0e22b46fd9b5f6eb418a79566656a34d5, 0xaeecc8c3d770c0ad214c7dfda577c7f783b4a80fe52fae10693cefa361b7de95, 0x45ae740be78b39f64d09d3d6dd79e9a603e36bbb0edcf73f8ad53969b2da0bcc, -0x46f7bed95f0780e57d1da560bd7c7c17a4084fc93b5c1d0aea6cdd690e0329e1, 0x11e82a72eea175f9096da45694c8806d2021624da35de677a6f71fc2440cd9c2, -0xf1d1122e1c9b5bb619e470808e6c905b297822ca65e413c4ea7148d73568fac);
    (0xfcc7c6cf3ec769c830f0093527377cb0ecc78f5d8edd7a04f54cec22220f31f8, 0xb33b6e874d2723521a7d06454f8ae802f1bfea1d4ad1b823b97b2d13fe332e63, 0xa0bbe9226582cc2c516e2588329511210a86a322b88fdecc197e849b9bf46e1c, -0xdcf7fddc760403c0f757919f1b62c9f21c9c2f7146bc14adb729696402111805, 0xf999eb4eb4316f2ba318975400eb80b4e56f0f4c3ca693d047e8c49eacac1abd, -0x440c7a793aba7082402f89fa065810f020d966f41c916901c8ec4acdd458a08);
    (0x94c781b1cff5c89b57055376941dea57ed6cd4c053ef5843e45d7b4858cf38a1, 0xa83420664d5ef2098067ae20bd4eb527ec161d0a5b75703d67925e8a0750ac8b, 0xdd377b1e77694396cab95f5fe2a8a2bcfaf48944a126b8d2511c38f5afb6a306, -0x216915f5fdd1cdb0782db5fff0dd85bf57288cab4593850e8f9b9dea877c5b69, 0x567749707c9a2f286d1acdaf5e5a0c1d4bb47a28f22117f201a45d2515f4e335, 0x668d16f26e7b59fdd613cee4e94621853950f8496efeb97c0a395938bb9082a);
    (0xf1ecc23efcb0b77698fee14985bf75892200f448cf8c0ce5b1e759a65a6cfaef, 0xacbac12636e314f8c4d6ed68148103bf26269fae00fc1250d20a29e89758c0c, 0x586a4ab9e047b78a9d9bf1cab87d470005e886853053923cbf65beac9bb39ad7, 0x568e4464f58f756a9fdfb476128d6f934adbbc3291ee1d78d57718fdf3f9fa87, 0xe49fa0b14f4a25bac3cefa9e7a0c924c2ea4909b28bf29552cdf915515f94f31, 0x94c0e93e1f6a8e1cffef812bf98f91e3024309110977c62ddbcac0adc071db8c);
    (0xfbbe8e25a4289c37f1fc212fa021dc5cc4bfb42057e8910ca269daaaba1d9374, 0x2c257649d47a0545fca02ef36bf71fbee9dae4cff872f18d9ea1a63b8b938c8c, 0x6c57444ca5e72dfa333ddc1941c56a2096ae2612197a83af0c323d4a8f36646f, 0x6d1a9289c7b84de592f1895cfcf30990e34914caf1c8e0a66189ba571a23f4a1, 0xf78f38951eb5164381dee28d2d416a3f6956fe352963aa92d4825497256f91a0, -0x20cbdc6d26844a3ef570ad3696aa1e7df0c28cf48b2ebdb1b254490df8080b9a);
    (0xc8d26f6d9317ff6ea7f2b9c5ae01a0d16d22a3059e46cb38ae04a6706433d206, 0xc3604ffc16473b6b8bcd32250d51872fa686f23148e2df6c1a5ad98e5216ff24, 0x1d7995239cbfee621d1ebbca811d29cca88b43f2593534951dc71fd468dfc9cf, 0x9323c5c5e1e809d11f2d088757776142630145462ac69c8b5da486b9d0b6f7bc, 0x9d897b16361b06f15e6cd7f623a0368f612ee88f0fb533979645eff915953c98, -0x76a24a2d16fa4041a9aa958c5edaa1ef19ce3e0ac4fd7ae6abd0fe9e8bc03592);
    (0xb9731144b6cffd9e0fd354aff935a4aea7cdf912e147f7732f5a3933f0aefc26, 0xf09956c26ab837aeb0442bb7e59423bdc24301ecf88b3c753522000d346ec1bf, 0xee79c93f2dca6d12553a50501869e67c17d217cc726989b90d8e1a076528ab54, -0x35571a6ed0d4fd24686b103caa46e55b83ec08b869055e4431de6dcb2b21501f, 0x865782add51f0e258f9bc7efc52dabd851f93d33352306ffbc05094327350e27, -0x20c289904b01d612885d49fa4f52513685f4e43eaab3a325195c601067ed23eb);
    (0xaa28e365875a1d5ad1bd9281b940fd698fa2fb0d138aff0b0521c8d1d34e3910, 0x4a44a8e7d82741d6222051e68d0a441b55941a4bbbd048add4b70caf4e1c3715, 0xcd6983070fffa32cc584b34460bee476d338fa9566954f23f04b8591e132d8af, -0x16959ae901df22e1ae271d5ed2f4afe3436fa762ff02130db8cd334940029fd6d, 0x711a548ab17b3173afabb620346afb51bf5ecc222890dc0f628614f6f9d8d423, 0x6e8ecc6d5cfdc5a09149306adfe807c5836d0454033048c0b12f651dae0560f3);
    (0x29dbafa5c6e7f794401e0a30064e3124cc39741e857dc89e0439f73728a94e33, 0xd9e6b07fc222537e074b65d4d30933f2e08c7cb0b710f73055ab9b7c4916f280, 0xfcf885261023b0745d82e27737ea57cebc586dd9f7bdfc16321d1aca46bccc6e, 0x7c33d155ba4969d3c62baedef7c51580889fc173ecef1cb9ded301c1a9284f0, 0x6d81ac917dcaf7a3a3ccc9699003799bd3b4b96722bb9aa1244bd842d2c87c4, -0x177c356099a795754a3ebd4dcee0f4f7aa8484cc66d8f5c7370253732f6d9ff2);
    (0x5867d7ee979b676045a979a57dc04d79cea2b67c55a57b7f03adc88e388c6cec, 0xd6c696598d454943be4b845d70dd9d4da2ca39e85a8134c85270717481f2eabc, 0xc5874199e18473023f16cd5bda700a61c4e51fb5ca8fb75da2fad1ff57fef296, -0x17db29f085a057f84e3b17b53f684fc0c62982d0fe4027e17a7bc82e7084f11d0, 0x1e878e93805b7724a5bd304fc59273ee2479214d75ecb0928d7429fc34041a6c, 0x1144d8a87337b7d655b13239a6f2efbf718bc33962128d00f71b90b1c7c7a14);
    (0xc65bf647d63458e618745120dc8e41b4f72418690cd495181f3452f1d0cf66b3, 0x312eaafab3b9e2f96210ec23d929f05f7327e8d2e5aa4086b41c4c7430aba26e, 0x9ecc84eeca3a7881cbec83fe1c6c9300065091d9ec322f456415abf2b8c8f4c4, -0xea76b48e6f220afb13ad34f2ae82569043bf2353d186c067e2f6d9881cd02754, 0x99b2620023596690408866268c3469663359992973cefc46cf2562fa09fabb2d, 0x804efc5a7ad76d23520f3304b7714884d02375e52636cd6682f46e765c3b3bd0);
    (0x3abc4bac6a99f11dc0dfe3f899066328ec75834a576ef6156d386dfd85bd1cfe, 0x6e21b444ea4b40c9b0e04c1807bc6e39aa06a7d6fcf29744b61d5b3cf4d70478, 0x3067f6dbab97b6517738477715a60f02a950e824ec138367648609d7f8dc8a20, 0x10a5ef7ca7c049fe9912c2cd4bd51ef6bedaa3fd442acbd2a61781d4b1697dc8, 0xd79dcc95be8cdf13da003609348a30abb144996162d25ef4906e4616d64eb5a, -0xdfbe499e341465c8021388749e93b61b0cf981232be457d472519045433ac30);
    (0xc83b1a307f312d0628bf58579543e1153075d1084e611c9bddca4458ebc611be, 0xe46dfd8e9d9d9fdcf5b0f8cd02616d5c595a36fc07f2af6f1daf37ecb443dda1, 0x2bd55bde252e9a3c4718770a9c914345f50d11c8d4cbbe045adc28b22d825fde, -0x426a26871b911787a96083556d8bd1b4ed19c4631f7136d0f0beda98e668e2c0, 0x9c9c6690dbc55a0a4f49b8f0180065848acce939cb43a93dbf4081e36e23d8fd, -0x5c86e8f0a09a7a0eccdedefe9ec3698ae794077b194d2b101d321ee3cb51f054);
    (0xd6000338e4ad8cbb9fff60f3459ed3b782dd779b3087d96d81a4b338abb4fb95, 0x2c7855ada3f6f817bb70f3632ed0aedad62f6d18f772142534e31a92672c717c, 0x79f9f03afcc9a14b745a318d5eb2dec755015e9af065146a6dbeee4ccba2230f, -0x21a339a05ec09c5c9e8bd0af0dab1d0fed43ec076d074da0bfd9f04f01add8b59, 0xb2e405631e5c894a98fe86426c588c63cf2d23d8d567d0f3193b7a44f93031f5, 0x99c75ca6d3b92c0a6bb86ae460e37644631aff3e9edf4696987a64651e7ef124);
    (0xab069d41e0afc0f1c9bce0f1662b822e93130fbc5f3d2a00dfae6a2cca145cbd, 0x4414b4cdc24fdba9533eb4d1af2e05d349e373a5af7ff1438688d3c0bd6954a8, 0xd1f47b4709c0d293e60c7bba11d26a8e9aa4067333cb681a2573124aaa521d64, 0x339fcc5814357fb5c37cb6ed7547d8312d7b5a186509e43f4ff7da09e11e2f6d, 0x7241d641c1db328b7ff45fe7a4a928b655492f9dcdf0581d33049664169ff2c3, -0xfc60fb5a8c9f8c8839d6d3f6f3286cd3c24f02c4082b73a43ec116192df4041);
    (0xe35d56b53d148618c1bb5ba265863eaaa50405b52f6c89486379d0f693de49b, 0xcdd463500d175c78be99da49cf6b36890b5561e78920fd7aa83ef0b17629bad0, 0xab353c55f2195243cbc20d1cb8c2c78bee122127825e4fd9ca60af740fe3c726, -0x1f01fa667bbe2310cc26257a465f783ec33189722448b1dd3086e4efba7c34d8, 0xc9eea9cd875f0c128d40115b6efa02aca9fd5c14107a6e4b6f31ede86e4e97, -0x7a573107d7a7f0a5f16dd693ccae34a63bf1ab57995bb3990ba7e57c7beb2de);
    (0x3db5674cc07635f3157db950bf0f0a51bbe0267b6b5ffa295032a659807b5992, 0x19789debaa59dcbcc003fed6feb8e7d9a14effab1689d89aabe39346d48b629f, 0xf9491479186db1a5eba6116862328699f53edd4896bb28da6cdf84827d87c84b, -0x19def8394c1bcf73fe2b9c1b6b148b9e0eeb00e4659fe25c19ae171db9afda0d8, 0xedff3c5cfef56c01845793adcb34b76e89630e7f41571edb2c8b48fe0f7270b, 0x2b79abb27ac3114d32ad28ed0ba659574bdf4c932ee448bd42b8641f4c1b7d4f);
    (0xc78d1a24cc6d60909f8b336b18efa8cb722cbafbc76e49d6179a1dceba6d5c13, 0x2b72eb8f40bedd3b0ffa0d93b9ec0e1e1c9ba423efb588b57f9f630f3e58862c, 0x2b4f7611bd149d15ba63f5244fd48160ae01253ba6fafa0b86c83b0971682290, 0x17d081439f356cf3705c7abb48f9c41ed0daa59ed0823dd30f28bfb3ac3784451, 0x9b8cac6b0506bb6d90f932fe2830c774acd7ae3c4cfe80e088222bf3c5813731, -0xe037b0cee7305844d97fc6a8b229a50d1f25dd03cac0d3f70f0143f4f5edc4e);
    (0x34f993f0f96a1faf4ec9fcf5c56c0d28d32165e71c996445de1609dce78875f8, 0xa62aac58cc129fa149bfb41585cf5b26113176a386bab9fd2d62b121a460b806, 0xd9941b0a2698aaf2df6d1536326ecc6522e45ae7d9e0c1f9ab897243d837a4ef, 0x1033a9a24f67e6cae4f3a857633705abfa94e82d8dcb4f07a74f281c9dc0a708, 0xaf6576b0596ee955567ae82e9e89993c22499cfb67cc477b00188208e3e516a, -0x1964f6ce7bdd99b2b60374c3c1da9060b96b79669c0ac5573efde1dd6d822f81);
    (0x17533de0a15dc9fc5790910290f5fe99c74aa59ced837fc6f52529891635654, 0x738594e45251cb5113cfe6dc0270c5be6d2c0b34391f83772ac726aa51c171e1, 0x1a18e449f417d740260af297079237f54ac7deac60825ee46cca672661e31af9, -0x14117ba1f411985293c359e1860de277427b5acc5d3787cf437a07a1b912460ac, 0x220102f8b9c4f1dcd77978c66a8e081bfd3501b360dda5268ab4c4270c8cd, 0x49d4cdfd8ab7534d74daa92a8e6734161ef122c14c0945f6d4c34342f47684);
    (0xd1e0dec82d4d6130c37c7f59e0b4df63e1066beefd73be28ae9223b4ef35cf9e, 0x3c2c4b806cde7d48f1415221f926e59b059f208803a11845d0964c3a5d5ba493, 0xebea6070e63e87410b1f021aae1420a752644515933b609f10ed1cc37016f035, -0x71995eaf4b57dc49ec711f604eea388581d67687c1badfcf534821b131df53c9, 0xac10f1497a276b34ba041c9bbe8cca8943ce15b3385c49e2342dc4a5714a6f01, 0x2d6083357aed4b632d467b41a3a267d0a2759d7a91211ad0c0c89f78f9cce6ea);
    (0xecaa71b9efc0f30dcda769c95114a660c659e1d35e6e4796481c715d6294c8c5, 0xd3221b3ebbfce97876da1e6175167b07072ec1c9b54e49f92998eb33f440ca02, 0x22a637036f68c3a4615d188b74d8b03ac46b7a788ce9f43304963f934ad9aaa9, 0x189c3e58921e4bc315ec6da0583465a316b6931fcefcbc3bb56d9d3d1d15b3059, 0xdacab32a0f83d918fd7d1e25f5aea889bf5fb7a0f9cd52699adf940de11b715f, -0x8b8f1dcf8b07fc0534003bbf001d5656853489c06a08a55de4c9250280a78407);
    (0x74cc2d730b229f13425379da21e29e6d8fb74e3a01d3be407c57c9353dfbe032, 0xc3466f007bb7b1ba02e1197ebb7e9c140f67d1ec9427c49a0427165d9d553d27, 0x53cdee11d6df05039f595911a149a6714bcaa0530cf658f87f1f630d4200e8ec, -0x1eac5d14d9e389ebe5292d3f43715946ca8537f90125de98a008085fa129ca878, 0x3549ac08b982c4f428510a711ddb431f9df2b2538d19c55fb5e2fc7c1ebbfdb7, 0x73c2fea34607b1bf0a188e514db6d1d8ed3945088de6369da2a04e05b3b729f);
    (0x38a4d43d3da18510b5544c95a829b3e493834e773b6e2d1d95ed82b64c6f6fa2, 0xcff273c598327cfd54ba5db93fe3fabfc31f8a2d3026a941e02661af6c4dc0c5, 0x936475d0a434f6bdd092193111cff1c51ac4fcf5bc95ee2c454b36316d449080, -0x199c71e7ce2f50195a874a3ad83dfdda11268cfd0e97573bc95c53bfe7a59294d, 0xc8886fb69631de3bef0ab203ceeb0021c27897e0027dba32961d457c17f8e5f, -0x2cdc9bfa87e75969492d050ca830aa1951c68ad534878dbab34cb01d5302f18);
    (0xe329990261334978047a0f11a34ae584d345ffec0da13284778516d30faeb8c, 0x41135055ca5f66ffbc41a007554eca76ebc730bdd2cb391897656624d6a76709, 0xcbd7c8c95f0f57015490f1e4e883353091585d0d2859677b3a7fad7872dbe6f3, -0x1ea64b594fd0bbf64f617e973a6a3ec0856d3f1c27e0f90f8c65b3ed9b2ccb825, 0xc992cc1c9697eeed57e868ff6174655c549e370065b998f59f75a4eec7f393, 0x7ec7138d8095681330114d7030da9629113cb0462571247cbbde411cfe7ae33);
    (0x20d4fb76cb3bde73932a6984434d00cbef1e2349b2348a6b847d4a9a0cc457d4, 0xabc0b212e6b2d831dcff0fa4f32f71402e2633208aa4e014838828068b5b1765, 0x3a63c89cb86a87c80b741f4adbc0d405b2e13f58b9c31fdfc6933f03117432a1, 0x2a8af4b73762a43fc59ac1af942f058bfad37c7dfb79e0d7deb788f93343c8b, 0x435f00f2691bc6cb6f60e8c3fdd19f2d9814826e7900a88cd38c49138018c37, -0xdae6c961395ca59e010f214bcffe14a1059c2f746e31e5760fa4a764fc52d7c);
    (0xebe0e209f7fbe5322b832676394525ea9a341da22d648d1370e2493f1e153b1d, 0x8d19df933199676a97f1f30dd7bd9fddd0970d5ca9cbc0aac386722f2e6f50f6, 0xf4c0cfb6e66075c08f2ae86b7b67b8eabbfa13693180a02eb47b4cea5dfdea06, -0xee1734c7021334376fec37a7380e46dd0cd701c397c4b3e7ff1dc0e9dc852cbf, 0xd956a48aa65009d75449ac9d08b5d120674003e1b5991a86d421cc0888b477c7, 0x1c3e1043e2601342453d85b5c8bbe28cccb9fc348e015a7536e26f57e0a1a4d4);
    (0xe68539e4c1a91771dc742dd6df163c7953351cbbe294aff9c9412f5a6223e546, 0x3b16431fd7fa3e18b12b99d3f0ad647503dec084cf562137f7b7aa7bb0946663, 0x787c1f881104071267d3f2aaca21229741c542f809b5414061ce4bb95896e37e, -0x116e41aebba68d2dcffebf510f6feb6cdae2b01cb764de3389cf26a753741e7a, 0xcf93a95c40c4ba79c892af1bca5cfe9ddcd4adcfee4638a69bf39c8239dfe73d, 0x49d9ecfc018a79585ad50980737e2fb24fd006fdcd3f097d881bb3fb834f13b2);
    (0xa23f2101675eae7d69746e291f1a711242395fbcc42267c1a5ceead9664eb505, 0x98d078a09831d5d8a2e7519fee8035da3948d77cb2524b2986364fc0113ae8b7, 0xa5e026c3e3d6e240aec41d6c1a971698ec3a64696b8e6b8118454090af3b649b, 0x6fceb570330759383196aaf4ae249d0bc07566959da3f5ba336b76f2d37e87bf, 0x66d3f55709c61218fca84852a0ce17663c471cc922aec75e93187275d20dfa24, -0x3b66f2c428cadfc6a77f330d2ba7c13dfeacbafd97ce6b7a5a23ecc6724a33d3);
    (0xe1e94f14d40f3f8f155f9417b41e42fd673c80fd12e30a01bb22ebd53c7a5df5, 0x2ea84f41c4d5b2ecf487ef563ac703df3c5eaf1c84f12250cd84c2ca5b4338f6, 0x9dc63fe847383960684d36b715392a220d8c548f6d503612016ed34fbf58c6cd, 0x1319b19d653a17e04976004314b05014f275d39832476b20c2002605904807b5, 0xc75bf1a3a91aae0e714c6a07100b60aebd5e4dcbef35c09ddc67b9d8749760fb, 0x5dae0bb506e96d2709ce0e6e6dd6cc97735c5872b050ecaa4dfccef459f4eb43);
    (0xcf61c993396a4525eba2e783015965b6c0b91c6ecddbef6dc58d589ff93c3dd5, 0x7bfe34cd23f69625e60b3795c73872741bb128d1e48f599c598913b004c38bed, 0x1ef109b0c35af4cffd5e80a0c8494ff6fc6560a7c89d55c6a155508a4d24294d, 0x3cd38b48d2d7451f5ca748cc126749ee51afcc287077b2b43f10c3a6728f6251, 0xa7ff49567723e32f974f7853f31a5572646c27674999cc6b19ad7fd09d3c0fa2, -0x3ea5ff0c96a01a7a45825d7d2d1cb0f7333f6557c711b52be2f7c92622c22ef3);
    (0x535bedad78d9bfd773f47df7d27f588b6e0fcf97fda309820eb9c1572be311ba, 0xda289545762b261ddcf1d6603fc00d53993b0f5809502d69bb8c7319d63d99de, 0x26578f2ab26dca7145c5c23a6204dbf7d357afcd2fd5f77c7d3ffdab2662bf5b, -0xa00444641a4c09ac3927ed9be0c652408afedf2fbcf4eb147a60c112b28ade59, 0x1b24bd21525bc483d4ec0c767218559657318a079d5ddac0f3b71f5d1d555654, -0x1ea98dc457d2ce7bd3bd7817d16a43f0707da0879159cf9b301f937df1f4c6de);
    (0x24e32b4b89c06184ee4f628c680bcf07b5fb293925cb3d07577651184603501e, 0x37528001bfa22457fedbac648e122a887e40bd3601ca737c31740663cc99ac0, 0xb24387698ce4adf9f75a15f060c6ba4d7770d6e7a280d87ed33d4f3415c8357c, -0xde47d09ac5392ed8a29d5165b0cbae52c3d1897d723672d44dcefaac5a9f63f, 0x550adc30e06dd2af6603965437f309123afb5764474a566d677e840ccd90412, 0x1eefc0c722a0e54e080168e57453a0c85e0aec7cdf3c11dd72e079ba93bbbde3);
    (0x44374c0a58f7835dd1c86ec3696b0d63c417a00f61d7af6288e0e16aa83dfecb, 0x3445dd31e8bcff2c7816c5ca42e90dcddb1482387b318f379f737f21d5bdf736, 0x70057b8c7071cda0c16eabe61dd1dc0d195ba8a70b8a609f7f0afc2ca0af7c98, 0x5edd0531fec4006493743b8c3282e5eb1d32476d5362adf50ce477da845585d8, 0x122d6c57424bdd625203b07a10129cf9dbcf76d733aac2d71809b5f619894c2d, -0xd01fb7816ff8dfb4ab5e15c1722e86e54104f34f7469cd26089d71a3b801b3a);
    (0xf16fb78cf21396b73c4621452ffa76941834633b334b9c38f11885a744ca3be6, 0x5c9c106f8c4fc7c812490257a713aacdc401588d8b9f0c1523fa5261e94bd3e0, 0x4728acfc0291792e5543b729ade1b1b146f5076e91e0c5c831826286a8d1270c, 0x4184ca547f4bbd3d8cfaf467bf5fe096236d29d8e8e1685ea3899a982807b1d4, 0xe3b388580f9d9e735e322a7d747d43d361e54c293a8648e5473b270a08ed23ea, -0x260ac08912a0c3b84ca5fc5dfcbc6be0ccf2b9291d69b6bae8928308af9a9ba0);
    (0x9650b3b3736b77104c55d6827a855b8787971285cdf4dc7a3f6058ec510e6fbc, 0xf91f21167fd19e40fad1c20baa4465fa2c7bc94fdd9d641c9347f0536503d47, 0xab93495aac27631db78f02f558ac150d11021344d4d01516a99f3556b3eef0ef, -0x10f118d28c16be5bbf079720f161b656a698f29fe04f215ac42a4af88ea8e3a0, 0x5842ac07198e83e4687752a726ba62e5d628bd58742a26b7780755592f130447, 0x2d3c3708babebda6bd90ff3b85962ff0a8e6c0a75ee4f3037c80affec44eb16f);
    (0x2cb54a3f1a7d608057719025549d7807f1b72eaeb565bdd95add7d84f6bbac8, 0x91d6f57139bffcd7ee5dfb998bf68b91b383650ca7a3785bea2d32e68902ef73, 0x6865e2aea3606905a99237db3d455af8432a2123322071e7680db79fe6502dbb, 0xe79179b5b7b9037fd27cc953af341d46a90ebfcc5ae930aa4f69643519e933, 0x7ced1e7c3df19551bc816dcce9347543a6796086e8874d389e67fd6d2b6f1, -0x16c01d27ea3d2428e69f45971d47aa4ec83a5ba004c295e524d1531cb4ef316);
    (0xa9f819c79ef97d5eb2081f4767d61e578a9f26bced39bfa96a7e36908635b71b, 0x785957cd80076cba144d8094f1c36ac3fa4fdf38d62e49b4e50f26788b3a4a3d, 0xae12d668bec423328833d9b93a659e1280400bc7482d54d680c716413af1276f, -0xfff909596de54a339b7100144d541f5b218ac923466544c9ced4cada00cf5ca, 0x70d9827b8542039f339dfaed438c6d81c4d94640cd3780b72797c18d8867843f, 0x10eca152f115a84cdb1d9a97555b848a4404a97c4efdcf8d2e3509b9a575dcf8);
    (0xb0f2a37ea632ac803f676828fff45cf92bb017fc25416c6aa6508ae3a6f760d, 0x5f56681403173f48cc384348cad9e5e37614c243c04576a3e598894234de3548, 0x49093138f3b59ae511d4436da2e4dc2329858f652fbad1497f327a97b01677e3, -0x9ab166701f36e4e5de5331afde3e7c1532c583f90da25b569f5179cb4d4554bb, 0x7a4e86c7a8626b4b0718ef738e721d0fcd21c0d23c75e71b45bbfbbc166ec9, 0x1149b98f618f2d00dbc2b149c4f0a78d5f6c0738a0a2a18280644e696886011);
    (0xd4bbcbbe18b1e756b8ce3ac666caae39274473d7bc73394ddb4b568c0119c45b, 0x69e9decc5d5b8373e6d0aa0f8a65fb045fbf5c9bc6c93b49f518704330a8330c, 0xe8df022f329f62f5917491b4494d15cbd445bc46a7ad85f31bbb5932a9e78440, 0x15f17dab7ef78bf3c25dfc3b41cd9c03c2bfff2b72b21a9485fec75614e18655, 0xb0c7933622c5c3626a205375d50f99468d5cc959b82cdef73fbe3013ac5ee223, -0x8c9e0732d05f15da174f5e8fd93b287eb3410efae140e8625d4fb2b71b4bd61);
    (0x104f15fdbb94199f4265e44d3c2bc774e1b8e7dd73a323cef965a83650840a5e, 0x86f8f0a73a3c782ae9755c85355a77b66f85c0634a60ceb174ec00930daf595d, 0xaeab7a67053a3e78056de63e35c7685ffd5c60dcd049c0969399171ff2f1a0e6, -0x65c949556f9bce6f3ed07a90eb6bc6eda521f75a0f0a42a904dbd708d91f5450, 0x109fb2e4befe4de50f83036d1c0a7e01532bf23b677d3884f96dd37378c1721, -0x1d9eb4339fea3cb718ce6d6854fb0cd42c43f2d70b7be18baae21bd14ee405c);
    (0x20b687b52615b581f07e64a848ac2b6b71b7c052cba0c542200b9f8247967cfa, 0x2bf9fe776e2a19fba7564f24d4b91837f319e39707220e0f09edd707a0386929, 0xbd7c934ea3f35d7a30dfcad9ec2f83d6e68c5a697e65a772e517db7170405974, -0xa8d8b66acc4014645e345bdac0ffb0aea37319428f7b07be41179bf5e8ce084d, 0x42e24128708229856adb5fe6dbe2cea674805db411a2a5f421be397b1bff68f, 0xba0bfc2fcff609f3deaa432a8bb3a1ebb8c39e30767b3e78ceea321babfdcf2);
    (0xeb31d63e0da9108aa0f0a60e25f27e1510f0330c98a751c9c545677d57703a9a, 0x77f848164d293e230a989d527716f2d408cedeb5e2b1991d2caa0a7b3b90ce07, 0xd3a5789b366704bb6e61377aeb0423588d92e106396e97740426231f4b4e238d, 0x14582ae73871c580afa842b57a9ebb0d50b147207c46b96d9e531d0b61791efb3, 0xd8148909a4216cf81ed1d08ac1b85e636954fcf3bf2f5af3c9042899ac0426a5, -0x45d138d9eb4ba16e1453b284bf417620992bc7cee545cb85fa860ce237581e03);
    (0xb297c2bb558d79f92f3257471507fc405f1093656b78246145479aeb868bd02a, 0x85c1c22643efd09f7eacbe9c931aea9d2a6d0027d841270594a763eddff0874d, 0x9adfd6d7e02af55ef40b98c4176e6a582f8df58da49a89340082179223ad57ea, 0x13cce5a272df78e8dcae4c165b58aa9b414a077042462fd552c37b27d3ac691, 0x7c9764c3d0182144efbccd841ee01481b38641104ffaba5fde13daf4f457ef88, -0x99e4332de4867b7dc1c9a882b829320a9ea91e5f6f43c979bc5ee9d47afc27d);
    (0x6b5c29d47495d1b8ebd7cebaeb1b6d72180cb37e2e93fe2689d46758b6f2f073, 0x2da1661bc850dafe2c424facb41335801d43747ff36025ea6445418e5a464f9e, 0xbfa45278c79ebd4df036c89cf8c3865e3503375b065258b2d47ad24aed8ac02d, -0x4fc2120e976cc4ce42378669514e115ecff3115bd3769a6b50bfa0eda92dadf1, 0x2d062c25b0fec6a89c789d7bf755c152824a8d020172a351f794085095e8205f, 0x24f5407fc71c0101ee1b0a866c264df00bd39dc01146c843c0602b344f7f1d5a);
    (0x913d05ae04d137586f3276b63e7399f18fdb4c6f5e6036ce96843d0a533ea730, 0x43d47d6e08000b0616422164f4bc5a3ddb24b9f8f271cbb84a5d53c532b724a3, 0x59a7fb51c08a999aa5e450959dbc5340d750bc7d7cb6d26dddaa24bc877a659c, 0xc10d174701368bd430120002cf88e14be864613067840ff052b94dc3538a55ec, 0x52662efad6838ee146c40dcc54ab781844c3fdacda04c154a6edc19ce0644faf, -0xc983ae03b44ccf89acb66ced052e38db072c029114c46df48f0748cca958697);
    (0x96722cd2cfe780dacaeff3fc72f41d5bcd38e625c44bfbb7575507ca811a2b1d, 0x42b7e1fb21061668331a850e9ad4bcc3ef545cebafa6372cee96d5393651951, 0x10caceb21bbded165ed6e079eb148f8b673f6c20226c8f9f5655f6c27c646943, 0x1faf1a2a50fc01e972e0aa701fc196f7ae277e5e7c73e75aca70e2e859c20a6b, 0x5869ff72ff3d9a407da0c01430fd550d05def46cb21fbbdbb0b5ad3349da3fd3, 0x256969ff0f72cf1e582fa47296c2be0a25717de2132f32115351aab68764b585);
    (0x43ec7a764ca467d41d39ee496965b64771ef49c53b96ae4067eb5859633caa09, 0xf3e5476df7f783eb435e45c40d5e5ecb9231e397fca4c33d5ee19e9f53b08c61, 0xc43eb7cd69fb5dd6a84e101fef7f6167df39c99665500b183e4057660ccc0773, 0x8b5043155e237d911f8054d12155d8f669a9e903c147ce9e327e23962b8b99d, 0x1205a28bf0d0552fe7da202b10476c0d8288cc4d5870bdaa2ddbdd86b289a612, -0x3f9b11a261cb228383c6e7aeb0a66a1c5eb439bf7923ffa25a8b7db94a02189a);
    (0x3eb1cb8490254b84cba4f8e234f66cc82f0e7f9c677f18d5ccb7e49a6f7fe940, 0x7ea2f2d31388ed94e807a367547ec595544dc743085398bca8975e92202a1e38, 0x6cb6fb24f88e0bf2f1be749acc6b7e4c4d9702aa6678a0e47362b79dd1d3f654, -0x258f841128bb3be7adb30346d840be2e8ae2cbe557cf12740780d502d1699b5ad, 0xf5a9a0f44ece566dda9f8fbaf0f8c9c8d2e8bdffa3371b9ec8f3bc3f048b7da, 0x1cb7809253bb90a4f3358418e45f1717d23c3fdc4828f38ed7e70250edf98ed7);
    (0xcb02036ae6c2c6e5cc278191c3e5d06c66ccdb99e01296676bc38aca3e3858f6, 0xb5dc9a9c2093949f696d34e052e2dcd5c9ce4300caf5dbacbc2017d9500e90ce, 0xd4609eb776349a9b4d87ad798fae0a27e7f64cf18b6e7da91fddcc1264d48d61, -0xf8284305deb8b4420bed14bd769ff734d756468e2d5b077c09a494d24daf5b0, 0xa0fc316f97b03088075682c82a5eee3714c5c4e317571a29e0a5c64f89ec0bba, -0x2bcb273c798832491b8559890cdb2ef817893dd3114e26aefc0e7c3204efea77);
    (0xf845470d879002dd2421294c2494bd25250f5084e2a0a4f3ecec353f4aef6f12, 0xd92ff7b7900899d7bcb4dd7b1d3c8a85d78cab6433d5bdf5c92589d8d7adccb3, 0x657de4a485226d5a6a0f43b324c2fe36e83fc3f82b85b971904620840503c7d0, -0x3a4d874fd72f0bd07ceea46848da53bd81b8316fd1a693fbc1072babf603334d, 0xf0c64c6997aa9b16ef35e26c4f1e2720d517535baa290a2b34af2480b9d868c5, -0x22425178a921934a18230c46fdba981c376ed58ad2dc5fb16602eeb5c26574a5);
    (0xabe6f3b98ec58b207486426409331b741bb6f06d55b383205fb1269dffcaa7f6, 0xca7ccb75c76f5c591d664d716ed757f8041529c8a0246d16e71b7c1bc471f792, 0x56c72bff53a634b21adf9b3b5f7bf6aeeccc59b956a8a9b4afa1eba892811397, -0x1a079c1eb83274c64496f67f560b7bc9f5f812d44a06fc578f82b69c317f12a35, 0x736e59f4be323e5e093f2ed7a8f5377f0e825508861b1a13f1a6390c7fd67054, 0x9def1886ec8bd1ef24bc058524b163825c9f7699ea486dedc6ca9f9cb146ce1);
    (0x80c475bce1a979b6c1a62de56ad2652a46d4421222cb8fbe112a96ef224e77a4, 0xf2df2550b6250be00d3c44d6e9608dc742bdae2d6e98f3587e7bcb1bd3916a4f, 0xaabe2698da49df0383a184ec2b81225b94f8f7c4f94c4c546970f56db4ca5f36, -0x289d29634ae2709d970cd6d7889834dc1108b20b4fd35e3c5adc7a7c2052d207, 0x40c50c81610936da4295ddef31b5238b45e2efcd7ca51fe3041f3f3df328e919, -0x14502acd01ddd3d840262caaecb7f94084fae75cb6cf05da604b335ca9e2d1ef);
    (0x35ec6b78ba9d2881ce979f538bb1df8114bd38a051e15f933603da76d0311141, 0xa027fecf5666098c2fa12aa8a970fbe926dea9cfcabe68749842df6a785e0aa0, 0x164a2924d377ece7fffde3e2b7f736383c80cb310a5894fe6093f0cdc283e71, -0x26b51d53d6d986f9af6040bb0a91bac5dbca70011ebc9980db5e2c4d1692da2f9, 0xb5bbed650fb49774a1aeb421d0af77940f4e3b24a55532105d7d9524d01b12d, 0x116c4e89d754c89e65ab08d26f5df330c5fe974a31cbef02762f8102fed1e5b8);
    (0x497ae69574f4a8869d823837a25a4cdad30f9cec70a63548927ad81c9e5cc15e, 0xb693927355ccce2a72e36cb4eb78d5597c87d8432f577b1dc48d8ecc10251471, 0xae1619d30415420dbfe4b6f0384535698eb35cb59630f444602759e58092fd4c, -0x12bc953238e5ea5ec1a85c7c59cc8db7e3bc639d1018a17dcd6480b651b54ec3c, 0x15175281d2d7e6b65f2f16725482df15105ae8a8d58bdd9ff18cc05708c1b49d, -0x66f708fdd7c77263b18da8ad8425e1d606b939a1e2dae48ebaa8f9015d5ba75);
    (0x9028bd098ca0f1b813b0e5c97e20c6f6b86829388c43278695f7005822d542f3, 0x97e08e33842680aeedfce53d61832b00d4919de88fc30ad5b6096db6de13fb03, 0xd4e7c757d038ff5749b9a2cf7b598bb506db5c99a7e8555578593215f81923bf, -0xc29236d97136da15f576eee3dae32788218a059ca8f53e48c0a7aff8870fc895, 0x512ddb265cc81c3b7528635f7276285dfeea089d838324877f79e1c1b8b8987c, 0x11499507df31c4c9e4acf72c73aace60155e21715853297b8d5d7d71627644d1);
    (0xd008bd46cc3fe356e11e8e4ecd9ba5b7177bbb1146269eb40ce89c5980906182, 0x9b3dd66bc2e893d297cafcf833bcd51051031ca3cd5618c66d08b7a783dc65d0, 0x635069f5f005d46bf39dcb4ccfcc2e641db74f94806ff4968c3977bba811b9c5, 0x4bb727115990596ae0a463d761301d012f749f26898eced813c27ae6f543eaef, 0xa90e33df6c4632960ed43757534ea643fec0da9d05f50d29fce39794311b2732, -0x2bbe814c14217d27776f0ab18b5c8721cb54bd21b6965c0659fea3467ad45c2);
    (0xada25f62a54d7b12c917065a26672174ef4ccbb89f24003da82d60efcd9c320, 0xf3341012d407a553d375c89251170ac01444e433f4418f402e687a6af9a0b9e3, 0x874d4de785cb73643bcc9b9ad340faac2ed2bb07ca4caf049059d57165a79563, -0x112004713374865bc78fb26ac1202b662f01036442260b2359913cd4e5dbc4040, 0x75c4dbe82fce4b19a2f6c3746a0777eb623fca76a4e0492bae79b3f3532913, -0x3ba92f8ca6be384e45e2927500c91f66fe8430debc76e654c0b8bbe9fc293f8);
    (0x2150bb3ea9cd0554fccd2d99f3814517ea29a44172e5eac3efe0482656b4ba2e, 0x742a834ef64686d333eb4d09e65a636cfab051bdd2ef08d093cef981d789043, 0xa415f674008ff4bb03e71a2244e69fa5aacb9cd2b14745040af122c6793046de, -0x291ec5efb479c33c1faeb1c08974051b5f19fb408414baa7a8c97febe7cc8cd69, 0x455e9bbb7e596eb7403f9b82500b9d35702af1407c0856fb8a64f2e7b1aa1b5, 0x1eb4866727a60e69139a626d5440462d82ac25d58f2464a2c446724e01dd1eb1);
    (0xebeec199116891795868580d616050c878fc88a88e437a38812ec1dc729e28b9, 0x614939eafcdd1702591476d6daf1a56eae7949285027af5ca229e3ca1abc0ba5, 0x5be25cb06ce616c18707d4f4e6d5bd5a9bcbbf1bc2c83b451ff4c3aeca58cf9f, 0x12dd43fd2622c75a7051e2c67f0ec3c7b9e4c2893a6d342857e32a4879acd868f, 0xd970361b90fa8148c175dc0dee25b05c1887a3833a1fbf2d5cfa16de1d284f5a, -0x52f7fdf25d84d9ebeeb79b8529b15275055ca671c93036fe3996a4f3768905e1);
    (0x2145021e2a0951cd30b8bd1f32a603dd947318359dcb36dac375613d4f4636aa, 0xc01b590a578f2e1e71604c790d33628f37d4022a346be6b00da408a90031df3a, 0xee636d46818ab76aaea0496bade7d5036036f717f2775852c0a6358cd5141f16, -0x5707d311d65f417d9164662ae4d9ac2410f323988e7ca60220e5d91c0abfc551, 0x452dd25eb1d8c53058954607aae72ef2e5287bab91cb8411820513d35ce7ba0, -0xc52a56e3e94382797e4533a425f0a4053173cb05b7098da8a3d2f9206e50009);
    (0x3c9af4837ea3529777bf99a21872edb2a660f012af83175a375d4d167e83bb86, 0xd1fa18c6e012218bb0e27bbaefba471b944f8da43e0dd7f52171dcd204247d94, 0xd1f9d0035ed16a28cd1b5f2c8b90e2d151d22b69b379b18f35db35d64d07777f, -0x10a85ff74d57c60d0cd30e9761c77db51ec9cdf44af6174de4b39b3040a2baf2, 0xe590068bb1bd8288d9a5351fed7ffc0429c789cfd8a91cd7f1077a58bdb00a2, -0x43b060103fba86182062efdd0cb97c7587b4b30f8798951094bd4f6e944b21f);
    (0x8d7fabbcdb86189aa7c4d7690ec3a532515b27241e71304e4a36b9ecac8cc581, 0x935f7e21d146f222babbda8a75abebfdca11c5303087a5f1011a626d48e894ce, 0xe64cdda2defd9de711776344b57d09fe86630a5600081653eae98934bdae2c6e, -0x11c9053a1bd5d3bf7c5fdecf00ad0c8b5697740e0c0b2aff5a51c8f106c758fee, 0x4e35e2d9e2695ebf1452be3534b2ada0d3fe732afd2970722f205db575be6be5, 0x229a5fdf158d1f3e611c5ff7666cb000a11b4930d2c8112ade1cefd3fdf8f477);
    (0x3a0dabcbd7e4df85797530916038b9d7df0ca16d7271e4289a28f4399c1f9a7a, 0x3c8723ec73610d7d408fcba83cb9a206409a474449422f000f53b26acfe45f97, 0xc36e8852e45a466114164112d95900ae55bc403ed24d536fb0a2722899a2a037, -0x5cfddbc1b37b973dae8b03bf2bb97e64fa4a06ef001cc644c0fbea8a62ef0da, 0xd2a329343d197430c4079eb1807b6975dcfe837e59b9621b93dc2a843cacf89, 0x13b1a7b4570a60cb06af19b94ebb7ecb435011c03cce9d54b121b5cdae084a3f);
    (0xf6cbdfa61a089fedc559aa81c5ca2460ed3536d40032462d85890f5b5e0c4a5b, 0xcdb20d549b404c02e4404c16a84efdbdb60ac24b68df4bd9ce06cedf2f896ba3, 0xdd9b15e9932ff0b344ebe25f4dde65c5fb6e31da46c5f25a51b8bdba736de9b4, 0x14de0d43a736768aa12252b73510bb3a5bf21276cc07b38fbb4e336ebfbd95fc9, 0xedec742faed8aa2b66d4b6daa823279c0d61f68dbd0c057c4b8b8e7409acfcf8, -0x8bf2d823bdd0781cac65ec5b513f4f9f8459d1ee3fb7470683177f52b6b41201);
    (0x4661fd7426cdd6dd28866009862cb93a63abeb61b69f4ff3e7a37c6dcfc5201, 0xe157c03df5253f7af5e8d6c64d76f02cb59121a3b277cd7dfe8eeeafed67d795, 0xf912266cceb86f70e4d9f30432d07214c609ec909de20586386c0ab2362debf5, -0x1714c20e8415c4d465ad79338edc760dee60fe5fa3f628c523c15ee25602d21, 0x1359bc1d922cc2e3d0dfce2bcac3498e9578fedc06e5a65447a6c5dbd2d89f, -0x566d42844dfbea37a9a73c5e77e6e5820d2bec529b1ead939d1cb8eb551655);
    (0x3609fb9ec1d135c0cc60261f01b00a66e342df11372598d4e70e35c074860a04, 0x50212acb576840f42700a1ef3edad6f1d0586a634cee83f5b62c5d11e2fc3572, 0xb516e3e230c1681fd443336b6dd939cc8083ddb1e6ad874ce4e67db09e33c15b, -0x1e9eb04e84c6dad05efd2ff8e007ce37b96b5e1715d0ec6b4208921dbeb1215ed, 0xb68368aa23e95e72e2a779e189452a56f2660a82d1801569393c73dada06acc, 0x1ea72d2c0075d9741fe2a25d85aea2389e321a9f500ae0571851ad09f0bb9f84);
    (0xa3175c639182293231cf93505a43419ffc11415aa9f738c1df3bd31cd3b8158d, 0x2416e6d6baf38b57736cbf63d90818746a2c4e7d89a14be655a4a592a8f262e2, 0xc9e1e58893d6d2fbcab7bb1e04bc89209cbae501d1267b11b9fcb6979d3a3992, 0x1a82e9286e7d9ecf62fc4b45d53c364353df39bd0faa0d88b2c8206b0657963f, 0x67e6c1c886879d28bd6fee5d3dd8682c4cbf46e391a49a8c73db236f368f2bd3, 0x1c0e8e15ac04c2bbe01c85486ba048c87dc2414665e7e5ac45b3febc250f000d);
    (0xf6dba5c4b0e8ff0a7837f6bad9f90c2f70a974b8fc3116373abfc2eb486d7758, 0x3b8320b92cf03bd88f46dc007d44583b6ca67a6d2b868ab3cc73cf4b014b3d87, 0xa802891063135f123a7b7c2c1e45218373e4ae424638d95a7586a601336b1e11, 0x176153a29f9b3e6c4c9f301fbf527e99ac2ad5f71dc0bd82da4023acf9d6ce26c, 0xee0adf0b0ddd9bf832c077ad1eb6f33c0d7dcaa9ca2e748bb7f0d2078e034e1b, -0x1696185fde9b52d418e87793746012441483b6761545257e280a6fdd4e595495);
    (0x7737add7f4710459b92e7ec45ae70f5a332b0da650c00aa98acc6b3982bbce85, 0x4d05f11eb055a92cbc25d2d8763a98553ac46fd99c9d19df4eff54e282633b93, 0x9e231047d9544ce7f54a2c4ad5f206aec4020f775bc317a2d60a5923f5699a80, 0x1cfb166d7d1b328ee50c0cc700308a31a72587e78b415d069194f02ed84dcf32, 0x3784cfbaee19b12887d50102c8993a29620eee2224542e960f8efcf413b1d949, -0x8279dde224d69546f7468c2293a13f6b8fe09feee363529b82682b49d29cbc3);
    (0xfaba36df50eb81ab8a2c34fa87e8c8a0e6f04268bad0cce145edda1132b4aa98, 0xcb3e993b7eee4dd9bd66bd56f99abf494f58986cfeba7ecad988b69968e14cf2, 0x3a5f26dd1e27bc50dc1fa03c6c20fa024f9c5e9d194adc58212c13ad25d4181d, 0xf03cd0fb5faa5beb3c2dc9d248ed09dc56982795615cd1ec4e2ff5d258641d4b, 0xf5903a9ff250886ce5b7708e35d7c66510fc37c42e2febdc07acdea2e6c51a58, -0x7b9f2464556582df3650be8b502e62e730b7ea9f510ad9a762c73d5ccb372d0b);
    (0x87311b6128a8ba4c611d2e8c3b869abce8d59c9bcb6fa0bd0ec97d420f2f2ddf, 0xde68c08bdcff4273166bc1e4a19e0d5ae0ccd0968c992e14904a85582da7a360, 0x12e1860b609f0697c9d5438d2a82518bc4c065635c02e5bd83074b2045d9b08f, -0x2b0a3d029420974868d69c8fa1cea13d7d6fa6505189471aa165c496ca3842cf, 0x4764d44bf70128874d48680e6291444f1afe449aaff0130346d835f7106bcc59, -0xa1ee7d9a026895bd14e238f88b59d9150ac78c89d28da681525ccbbcc1de9e2);
    (0xd6d840320d3d6136d30cc4853ff2d1e8e7246dca3e1b58cb3cce40a1234ef3a6, 0xa44ad482c27861725e5fbd6eae4bef8eb73db30a77b24b1936db3ca26d787761, 0x95bb983a3be062551601738265984cde6d329a4466070444d669a019baaa1504, -0x223fc984963722e1a7a0c3cee4e4e1d8a4be854b7bf701da1ce309dd62f96b134, 0xb44e420012b2068392a22ba2457fbc72939279e13efe04a67985924db984c6ed, 0x30c61b219bb6f67cd63a6e1e64ad00e125ac334c2b7068da8e2c1a5c4e6f38e9);
    (0x9256669fc15a425cb1ff09cafcc272b87221783e993a2fcd9058d72320cc857d, 0x3056140b83d355853a852a41a60584e59008f3d9e7db631366f263e0f0cfe8d4, 0x1621b4fa7a9e800974da0a855e9248918048618d597eacd8b8fc963c6d398b55, -0x185272f99edede736238cced8e9133ff9d4576e0daca50ab0b7dba34cf9ec877, 0x53a6aa3755048e1bfe580364f20f2a7f43059f408b332c7aa600be0e84a29184, 0x4248b8788b10a07991b9b3423a80aedb44fc81ec2471552c804cb399985e1c80);
    (0xfe2dbcefbc9cc5b8c096bf0ccca5ef916ba2615fe1e4cd780aad18426353fcdb, 0xa89f6eed66e68dd2ee5085cbed865d8eb0aab3e34f155c81eb64ac98bfa3f54e, 0x6c3b52608c8940a05647f54d7e25058fdc9a90ee115d3dd7ff7f764e9402e58b, 0x10919e4440853122b445112363c2e949d5879a9f7e20d3f1f45f7899172359a2, 0xfc5ecb17b20065001b36045a7f6abe45b034e6bcbd4ac86abad024e9cbad120d, -0x776e45d79cdb403ba0e67c3844ec4456f5ae91d12668c88abc71d8fd3cd0f922);
    (0xb5a2d7369509afb9b846a8eb18c270972f0b66e8215a99ac25eb41a8837ceea8, 0x96ec5166df753629c389cee7235777ce24c276037fd2b51f23328207e8bd5c2e, 0xdad76210156593e12e9618f6c1ec7f3ee8355a216f9ccfa1ad819fefccb901d5, -0xb39f5b1d21b9c8d3d8d71426dfd6ad439a65d928aa5946f54824689a7d4dd9e4, 0x80dfabe844c10cb881a58116ac49165754146571c6961bebc59cd788cd45a46a, 0xc8ee61a00c6fa7675bfc95be0921ac5fb0019d98b0a2ce7fa0c0833dfe17c60);
    (0xa84b6e9ad54aa477d6d52067920a850302f89ccd272122ffc1cf2e1cdaa7cdf9, 0x9a8ad14dd03e6e38ebd340799cf43b7a160a3d6bb59386d726899f248eb34a2d, 0xba82cdf8f4f4318595a7174630c83a25faa09cfab7da80852c733287a2219459, 0x14ce4b622950d5421dd451d0baf305420c7f1f8218c90dbe6fbf6ecc4d9865d2, 0x6ea3176536745e8b1d09c3a97711fd58377870159eecfb5cecf0279dc43caed8, -0x26114ef51feb2b008c32b24964eb49998775bb118b26b63bcc046b15f5396db);
    (0x5ce28bae7fc1bc5697766233eb66cbbc49dbb54ad9a58a49f871a422ad714ce1, 0xfac475778fc07a9383aa8bdefae50cc0a7ec67d07ea54a5f165e650c34c8c692, 0xc7c4c6993914bf2f24fc49ae8330fc040ece70ada68136eddf40c35a8e265039, -0xbe67cbdf8f180a1413e2db6b85a65e6cefa6fe3c5aa3d86843704d581a86aec, 0x21b39ce05823c71d13645d4697d685d441bfc8bff6d9d9c92f2f4f0b0290d4b6, -0x22e9de62d103774b97fa34540feaf0783e6a2c5014aaeb0fee249a76ac3ac759);
    (0x9f0f2237e538c8ca27ebc54c61e1cce9ce633b567745e66747ba04c5e289bcdb, 0xec18445bafce5461171525b56380ee26c0dc09d323d0e91bb60550954985e0fc, 0xd564fc871b2b6670c5bf8075d6cf8d70249280f34c0b12aa88f096106b4747c5, -0x1e8aed76bb152847322c7177a792f8e2d3abee6bfe8e770129763278779b26c9a, 0x62d3cd6675dc4b2a064229ffe99ac9f6de56cabfb8daf2afbff971f1952f4317, 0x91dd08d43610ebf9e70ed688c6e23021079d15392049e9ebb8ecfdb568c44ec);
    (0x53e918519231e776d21e54e27b0961f706a56064148421100a44bd263fbad4f9, 0xe32636a0a02ac2f641b8e47aa98be8efc855a171967ea8fbb3e7d530b4c7b489, 0xad24785f13bf52ca4a0713aa36ed3d437a45ac17999133345e9ee255cfbde250, -0x257b419659685c6a507b7e8ce092942fc503f274e0e59f69cdd2b493d1998379, 0x1b80fa022b97e0559501dc95fb96e9c610ee3420c4e1b823d6953555625abb2c, 0x2ee9f9bb04eefec26d326178707da98cf06cbfa7aa1e5c757f28f3d9ab81f1a);
    (0xb2bca22baea8ebcc136f89461df7843021f7c53f9621c8ca8078fc42ada4c2f8, 0x452a3cc6eb159a2701ae57207c1713938dc90dce398afc43cf8a2fa363a73a5a, 0xaec7a911007fe9c83bdaac5a5f3fadb472c2e50ebbfa448e516e3ce3e1ee68b9, -0x16ae07f6d1c34b8e1cc90596b80b3004c1fbcb906d0d7f4f6ec56c6f53c3cea7d, 0x7ccadc8355c6c0840d1b35de91528235a868d3aafa6d842b2940d1799fe5876c, 0x6e4d9cd94501f0c510331238ebd999a46e2ad4001c7a451707c75919970becb1);
    (0x46eb9c5b4ab6ceec8327058038b51b4e708eead56bedabd6a96aed1984cc62de, 0x307723ecf0733ae8f0d65b683aa07d693fd3b0daab0077f38b5b021fcef32ae5, 0xef64b3f0480efc200d459cb5c2f057de71e6775a56afdba75dbba495d1b8daab, 0x28c78554003af2baca33432d972739f21944540f9253bd0ad19f4e2385fa2510, 0x13a5b25a5bf688663de7aecea03bddf2e4b09c4e285953e68647485414ae9405, 0x5bc05d7ef7ab08d5b766f779d9c3505bcc01336b5c3e6dd1594279c2b8ab48e);
    (0x515bf8132c3c68992a2c0d550fc20ac3dfd1cfb870321cf6771b8f437dfef239, 0xc95ba0757f50dfe529e7c80786c077bf6fbc319c7c9f8e6ffce26e2910f70bf1, 0xdbd9c131068dafae823c89cea6956173b69d96f7461f1163b83e5b0f5de85e78, 0x7ca30cab22445d5ef4e51d806538c4d976541af1c2cab3f5c13c8ac8f8fc4255, 0x19db54067004d447ecd8f668c3d87f0e9e469e6d7e458c8c3a6d0c19ff55d4ea, -0x309738c845c3cbf3bae3aa30ca287a759ec3ae9d513fcbb60cff702e8b7a1161);
    (0x9d9b41fdf3f11495cee3aac645f04056e13e623492aedc51ec68bb81973391a5, 0x1973039bf38e5032e791aefd0c2e66cbc6cf91269b4821637d70538c878ff642, 0xc1f4d1288e619a9afa7c1cf95d31f85c2e1293cf55d5b493cc6d5a3e1444f42a, -0xcc6f464d1731d711696b751ec6fca6f5ffc73c27e1f4ff582860c217aec3df7d, 0x6107cd1a77be0afb2c961a6eb3151a1cb8034fa2b7c484abecdea4c8d96496db, 0x6c4c5760f2c3a56c1ea5666be2b3fcd97729ebe44d44b14392a058ecd9fe9527);
    (0x72963816c94656a7f2ec3c9fa9f82b3d39b6cecd38ea2dc102b1a2b13b9964bc, 0x90f9968dfdcef46afd11b1b5e62fe419aab24f58990fab203615f30a379bb1e9, 0x88d742122db6490a34027d066fb71de40d0f900de5beaa4953d8d3c4db72071f, 0x2b1a134e19a66c8c883606ec9da96ce1016b0c0dc8463589943b64c18fa26e86, 0x334a221a12407db11d6af961964190ec6c672ced001c93499d4c4421e5f57643, -0x35801079f611deae0fb838f775beb0525465858a82c64361fae29ff49de2cca3);
    (0xdd2da3d47f743fc666f15a6fecd9d13524ee39f4f9371f3ba798114b5797a553, 0x9e7176cdaa3c6ffd1546c9c792c924530bd412ad00fee963bfbd19372c274f27, 0xda43f7557b95eb35e2bfa1bc68b3b36524b2e3422e065aed392d2cc8cc0407fb, -0x9d8c33bfaa68fecace910c1beaf6df5342de35f7684b52a81b15722cd12b037, 0xbf17d4ffe59bcfac5ab1bac19905abaa2b4d6f285ee8c0798c526bec7402cd10, -0xba2e347e4cea85c7ba2760fa09e31bf0a39ea814bc07d8779080069a9dc320c);
    (0x2c173927ca76f3da63449bc6f4446a2ca35c01569bf418691f0e23fc4323f420, 0xe3fe28838f040626f4f77b2b73ac0d94e46d530a8e2a1171d73ae9dc4c892af1, 0x1d207d00827c16e319e1ddcfdc96f8148d87143aaeade43420438f16105320a8, -0x6521b159051a536248ebeaea4203a814e4a40e3f5dab5da54fb705170b576f3, 0x797fdc0ff82038b2c52e8b9884194065c458167fc3f7a0c13891959da0b8eb0, -0xbfa7db65dabc3b74ce0a481d5e9d60eaa6a3fd29afbfaedbb63dcd6295ffc8d);
    (0x93f7d2a5a5cbc994a5eac8857726558ef9f38d54c307d60af52d8f98c7d712dc, 0x49e940b67beddf6718dfa52aa77203fc6611941256f16b77527688c45b02ffd1, 0x57d5619b6977bcedb423f94d1260d3cbc0adb1f08499e58a91a0543cdf92d9a, -0x23f7a745a65c8669630efece9f2bd7511e9784286d1bef36ca6a15de43512228d, 0x55868bd2656227f12e2ddb3e385df172c9e132fd0ba6728e61e91da16a720633, 0x590f2a0f423ce4c3e66da05fe19a0c23435cdc3e057444a8abedc091052eed22);
    (0xcfcbd4f7ff4b610473a7ef1e1c7f09007e334debf9e9a16b3ad7678dce08870e, 0xf3a7ed5a1319f9ded66ade6a70a6a974c53b03562af9fcaa605f4672c375c418, 0x93288f5fc44c8f24bbb81c176253f49c2c96ce987773413547912cb7ed19b7b0, -0x371b2326722ac9bd905c442db77c5cb5c0fa0b56d862659e3bbdc8dbfc67d5e5, 0xa8ab44b4815677848ad4d8a619b89fd1a409ad400330ba5f47f9b266abf2bb16, -0x89c85501842c7d8eeb467bcc55a7a59fcfc6447e5f6a7213f7851e98063a6994);
    (0x5ea52eeb0b65c973e3a0581931847689da4eef204ae6407dcca96a677a06b82a, 0x718ac0c2f5646f9f45916ec976c2b8e5fc94a8f53cf0592e88a1cf34d1b81953, 0xbb80335e0db1f755c4fb5ea79a1f165445dadbd7c426de6fc2339acc3b901402, -0x2d12696043836cd5f7f3280a77916f10aec4b57e19c6f6dd9a43771f7d0f0c78, 0x22fdb90a1ff4c10d4c5495be226a7bda52bf78abedcc6c31bf1f0e90c9e39eef, 0x301aab05eee4e1a53b5a18d5f3b469a113e40b3989e9b663e96de130c5e7f160);
    (0x93743b906dc7a4f6e1ae1e88b9e1365238b1dde66213ed90bab800980b5258b4, 0x9e66389e2ce060a746e9df852c8af84e0f9144bc885e404a71171564a5f0d43a, 0xeeca3e30a420cf5895b1c75c23474ca17b09e01975f4a53f878c9def3593db7, 0x40ec224bb9c4d0009aced87db71119ce90ad79c9b05de4458e10519a08a612fb, 0x54eeb12de6d2a876bca17cccf5a4d9ec1396d2159095d7a63bc5952ae042e750, -0x19d663b51380ae33f3ebbba74f728c00b9d43ace5f4819d48d6042083f3a6beb);
    (0xdbd3fc4aeda0d15d1b8500680df9ebc4fe44f8fc17d7fea25b4e514cd13dafa1, 0xd0df5ba4b7b54a1add10315fa25c95fb9b617ed159567acd2d647a38ef7754f6, 0xefd7286f927f633f4cc2dd0a9a5869a786204aa15dd1e4597ce162b7183b881d, -0x10c656c3602e860415edd38fbd218eee0f065004a310cd4268574dadc8740a922, 0xbcc461320eb87711464c6c9f39b18cd726a106b9991303a3ce1b438f0c9fded9, -0x2b576c8c7b80fc2a36b5be720cb1de115fa2e98e4e48cdb6ee89317b15e86cf0);
    (0x8f50233c16ff902d4d2977a7c2642a4fd25dbc801eabadb4a69f3246414295a1, 0x7747815a16bb110449051bc99f3ef865147dba1f1f7576d9276af323f9711616, 0xf988e7e1016afd7b01f01bde15e6028963fc30a94301880770bad6ae6af3afc, -0xf2ba9fba048051f5af206d583e5f79124c79d08d2e589dabdf183e3b5f3945ee, 0x503aa0732c195f3163cd71d60ae333aa357f1b4cb06a25dc8e4cf9c800f109f1, 0x3227deb8b1b9ef0f83dc4fba50698150b202fc6636a1e5cac93a206e0e8e2fe9);
    (0xccb80b5d0481c9bd47931b43a2485963172f054a05fd66ef7dbf661ae3b6e063, 0xd9f29ca82d49cb7e6915e13b93a512f1325170c8c3d29da47f2e3f20510eb34e, 0x41efc824ea789691ceefa2c9c273d4f3af498fd4814a8db135fd412765efe8c2, -0x8dc91ae816e515f77d41f426c5934dc297e9df92cb3fbe63a082a7ee313ee87c, 0xa3b5d66c9566744717e07eb27b0fb6ffe6e8ee12b6f2efa8ba6b394112925761, -0x4ee7491f0e2bebecf43e9fab225eb6a9b43c6ba0b0b9e8decc5d72af70cbde7a);
    (0xe63fae67f389376e21251986d6f60e31c75c5d33e24e1446c8b64d9661ad7ea2, 0x7b61c06b3375acf0956921c9fce42a22f4c533081d9f47285716edc2d0c261c6, 0xacbac98452f83c8ac98b7f36ae89d96eed5fc080a371f5d953264f5d76de82fa, -0x5686d70ce5ae8fc4263457b41a62f7e3c96e68681a4942c2f60078dd17ef367e, 0xcf167d3a1795e6679335129567fa2f1da392d6806372b6476b1e0ed839663da8, 0x550dabf1d7664e0b2dc524994a502cd9cccbc12c98e20317678465d0de532fec);
    (0x89230cb6fa3307240431b1cd344a46f9837cea5e881e3b9823b00a78a9f06793, 0xb1b449062d9b4fcd2e34376cf273a885b162cba66f5e9787a3f7c998d61ebed0, 0x36cfd5754b16a06d0c5344c06fc4863d5daaabae7fcfec02a9a853962c8db76e, 0x6a9fb3bf925d5ed763ed81478f9c1cef950b5a72da0131a6d2aa50ea5587750, 0x497688685274b1d5fe17919d102591514ee2b01a45cd658fcd40be72d7a6f083, -0x1d199b164f3a269161b5912c91339ee0594a741d0ac55335ad1047041483fdba);
    (0xe47e3c0d18158ef8c84115b01a32d9d017d262bb4b28d66c37fe4af7ff14bbf8, 0x77f3aec668a6e4d88998c102147c6da48047a9943315db615f156fc33f59b31d, 0x99bd89c7a1525ae16ba90e2aaa8f44d1ae55f9337089beddbaa328a8d7491656, -0x31f295e6667928617c055c18e42bf00f6e9ca5b929461652ae8af358a9c6c096, 0xcbf119367de03fd971123e754b011cdef526d724f2dbe49f9c2077bfc01e4f35, 0x338c03b8cf2a527867824563da9528c4bc63c643a2dc20208b3512ebc7e0249c);
    (0x88788c22328cc104324f04f6827aaf5f81863989c379882f444f3842e0b302df, 0xb7cbfa6f6d692ccb2dba182344b5ea3b751c1852e7eec7f989fee47b91c2ab4d, 0x77bb5f68c8bdb14814669eae8a66f8412360337208b354da1f043c449fa3b267, -0x4b330ef8387a8aee8a8b58747311dc90fbb2ff6e59270d3b10c61ff00cbb9a9, 0x48c04da8027a5ce4d3de4447adecd5d535fc877811f50444536c1c4eb826ee66, -0x2208f8881277458b0269013100f0626e0960cdd29afbccba5cbc3e1d96817a03);
    (0xffdb3aa41887d0f1008e4b2a3968660bd1c5d772f3310f667b410548cec9dbd8, 0xa6677b5e8ecde8e0518d46149e3873e347fca7139d19f7640bb5ec2ab322805, 0x6baae1478664e7559925b789ee6143c8f9d5267ca6621be72be0fc6b174c80ff, -0x3e04aa30ebf52fb757fe293830d9356b9bfce106f339333ff29d70e4877fa747, 0xffb67a904b0f4eec967d157721cd6bfb777bb707175d16b4d6317f77a2e9b68a, 0xad4c9ac5c4ef7171ee8e113b50d6fb52e78759a38551f4be0da1546751a173c6);
    (0xf88b670f08cc1c478d3fa2fc50a02cae8971ca5a6b63aa2367a0b407d004160d, 0xe3d71ca8794b44976a68d6382f5e7100e597bab0cb704235897772402eddb3dc, 0xae3571c455279331935b3ec566357a2e78c7da67decb295471a648d4ae687249, 0xcfcbd7a1e55b8aa982db7810c7a8d36c03bd96704a657ede3593bae457041e55, 0xf14e639634dc1e679e58f7712aced976209cadb40c91c08b3a9c169c8eb9c3ad, -0xd31b877da2fffb570fe4a4050f5e7114194ff3d905b705ace87a6d40e3ae903d);
    (0xe31578f80c2b19a2f9a9eb8b0136a56b985cb5726610d59aa7c7e008ce4d463a, 0x3cf6f84d0178608782d5acf1accc01b1d1a1124186aa35ac09242aea7488d53e, 0x297aa888c77590b85863aea1f26ea120688990fbe60eecb4de82f5c2b7c718ca, -0x12b4593913be73527d93097c8e78fb6fa7924961637b65452c2f438fe4d52d4a4, 0xc96f1654f76fea49379ed51515b8d477d02b8f51e0040ea5d410da59279b6932, 0x9406bf7ad8dd875e43f79b330986b183d82543800793d748df58984571aff797);
    (0x1e74a7c4f0e63edd5debce36726af22a17c8c02f00e4ed46692a3dada79ba599, 0xe483b5b95b2b284aa1f91b2d273ace7c9d1567a5a92bd36021d41c05b737901, 0x4357853fae07c060dd5c4702704f52d32472069da29206b2a259e55cb3a94e61, -0x21af8aec141430ead969fb93b46cc5ec9f305a056aa574e1ccb25623e5acafe8, 0x39f8c7aa0e2d13303e5fa7d31966d9a33460b24bc53277f1cf4ae2e975fac4c, 0x58dbfe9cefdf3b26c38d5290851ab97a702945047cab0cf70612bef2254b5d6);
    (0xec0cdcfa14862be72eae5ca382ad8d018249022626425702c2ae05adf45a15f2, 0x5f8dcf1a501069d8c98ce52f9045d877341e0b6f28723bcab733084ffbfc7ab4, 0xa8819ad6411a8c302472b39c5fac3c7fe24f8f97805126fde538632f5bd07cac, 0x79cc318584a34b0723d76b79b69f2fa122286900b10e3495bd151b52d41b056f, 0xd9a7b8128c0815190ee6301720e1cbabe791fa6f4bac63207ca59dfaba8cab52, -0x4af0399df02d59b6fecbaa4799337ac0f81c2f368853ed05f89e322e02070f2d);
    (0x472d737100b4681f1a9f50a373087c65ef3e719dd55de24604601ee78f7ca60e, 0x6767c42a7c6edba2195f0a5a85d7d02ec9213cec9f9ee3c82d01ebaa83daccb8, 0xf11e1bcaf607bb6500fc43228c80291413f3ae4c779f0b6344c2a7130ba982dc, -0xd4bf15d79f78667e3c22d8cbb599c62442d408cf0620f4e749c4ae3157f7d20, 0x13ca3e1a782d09b1908417403c73e913c084fe6af551c27fc611f0503c26669c, -0x22ed7d1f076f6aca7777016cdc3734b1a5c8546996e34424a7b0cced3347840)].

(** multiple, its coordinates, and the chain that checks them *)
Definition small_table : list (positive * (Z * Z) * list step) := [
  (2%positive, (0x3635954789a02e39fb7e54440b6f528d53efd65635ddad7f3c4085f97fdbdc48, 0x45ab99bf03cba8e15c8b1cbb79f3f163937937766c1b1a5218f40e1ea0d164b7), [
    (0xfa3cf9d58403ed996d23c24a134666722df824348da34d90d4b8cde1ad396ed, 0x3635954789a02e39fb7e54440b6f528d53efd65635ddad7f3c4085f97fdbdc48, 0x45ab99bf03cba8e15c8b1cbb79f3f163937937766c1b1a5218f40e1ea0d164b7, -0x5fd7e30c9e7f03695591311165bb0a5fb2b921ea78b041049a9c217d2cc10318, 0xf49b267b15be9acb9fe6e4f0947ed114d85eb46e24aa3ce922b9776103e81f, 0x3016b98f76092033e16fc69887b853eea9b98fd795fbfcaaa5b7467335ea973)]);
  (3%positive, (0x6a967ee33d83fcec7fb140d982561934484cbeac324990a21db9c323ec04fac, 0x4622d14904355909ec0da0d297e68f0edadb84370a71e4e1e5598e51d5646e12), [
    (0xfa3cf9d58403ed996d23c24a134666722df824348da34d90d4b8cde1ad396ed, 0x3635954789a02e39fb7e54440b6f528d53efd65635ddad7f3c4085f97fdbdc48, 0x45ab99bf03cba8e15c8b1cbb79f3f163937937766c1b1a5218f40e1ea0d164b7, -0x5fd7e30c9e7f03695591311165bb0a5fb2b921ea78b041049a9c217d2cc10318, 0xf49b267b15be9acb9fe6e4f0947ed114d85eb46e24aa3ce922b9776103e81f, 0x3016b98f76092033e16fc69887b853eea9b98fd795fbfcaaa5b7467335ea973);
    (0xd03831e7dc86e9047ba15746803e660c4f6b23410376b7569f79cf22d6f31822, 0x6a967ee33d83fcec7fb140d982561934484cbeac324990a21db9c323ec04fac, 0x4622d14904355909ec0da0d297e68f0edadb84370a71e4e1e5598e51d5646e12, 0x280392a9d08fd6b44b68a15f57ea8aa5a4039c7e020e9c3f724eafe370b4d535, 0xa95b5d6ea5864a189980a96c1919e37c4df4b8b1a1ae1559ce8a559a52f4a3a8, 0x26ac54c7665dc01ada409da54cc5290f60eccd642299ea7cf3b3303a397a2e41)]);
  (4%positive, (0x8ff83d8cf12121491609c4939dc11c4aa35503508fe432dc5a5c1905608b9218, 0xb9e151c6d43bdf8daeaa7658ddf1e474ac027189417b08c63e0bb40fc96d0f3), [
    (0xfa3cf9d58403ed996d23c24a134666722df824348da34d90d4b8cde1ad396ed, 0x3635954789a02e39fb7e54440b6f528d53efd65635ddad7f3c4085f97fdbdc48, 0x45ab99bf03cba8e15c8b1cbb79f3f163937937766c1b1a5218f40e1ea0d164b7, -0x5fd7e30c9e7f03695591311165bb0a5fb2b921ea78b041049a9c217d2cc10318, 0xf49b267b15be9acb9fe6e4f0947ed114d85eb46e24aa3ce922b9776103e81f, 0x3016b98f76092033e16fc69887b853eea9b98fd795fbfcaaa5b7467335ea973);
    (0x80ce6464df5e7f17d52dc53a0e4dfe7e0570432eee1ee75cce5086b5a01e097c, 0x8ff83d8cf12121491609c4939dc11c4aa35503508fe432dc5a5c1905608b9218, 0xb9e151c6d43bdf8daeaa7658ddf1e474ac027189417b08c63e0bb40fc96d0f3, 0x23abfdfb6cc6c3d3145110f19fd42712943cec7929082209d959e60b6fb56bf8, 0x40cf0aca9914f16d778c885adf93677f18feea36f28ad76a7de3c8cba27f0b18, -0x2d29b1f983b04d741c19d0aa264a23bce9e92c1d10ed136b87e3a47baba543b6)]);
  (9%positive, (0xf0633bf1e0c4d7df2798aa607077b9109aa37cd5ce4e4cbd84d84cfe91a12154, 0x5d0ad0ee8296cd6968d953856ad2a9f909376c6bc80ea2dae101415026b87d1), [
    (0xfa3cf9d58403ed996d23c24a134666722df824348da34d90d4b8cde1ad396ed, 0x3635954789a02e39fb7e54440b6f528d53efd65635ddad7f3c4085f97fdbdc48, 0x45ab99bf03cba8e15c8b1cbb79f3f163937937766c1b1a5218f40e1ea0d164b7, -0x5fd7e30c9e7f03695591311165bb0a5fb2b921ea78b041049a9c217d2cc10318, 0xf49b267b15be9acb9fe6e4f0947ed114d85eb46e24aa3ce922b9776103e81f, 0x3016b98f76092033e16fc69887b853eea9b98fd795fbfcaaa5b7467335ea973);
    (0x80ce6464df5e7f17d52dc53a0e4dfe7e0570432eee1ee75cce5086b5a01e097c, 0x8ff83d8cf12121491609c4939dc11c4aa35503508fe432dc5a5c1905608b9218, 0xb9e151c6d43bdf8daeaa7658ddf1e474ac027189417b08c63e0bb40fc96d0f3, 0x23abfdfb6cc6c3d3145110f19fd42712943cec7929082209d959e60b6fb56bf8, 0x40cf0aca9914f16d778c885adf93677f18feea36f28ad76a7de3c8cba27f0b18, -0x2d29b1f983b04d741c19d0aa264a23bce9e92c1d10ed136b87e3a47baba543b6);
    (0xa4b961d77c709a3a942e58d1655223925cdcd04f21a7e7f17e02b3c254fdffaf, 0x39f29c5586f5542b3c01785850e7a32906e19292b9a01c42ab886179418bcab5, 0x9d6f4c7cd8c788916cb7db57155f20a0635540d0c028d8da8a26348a1d7bba26, -0xe3f2720805e0ef05db3a015b30d1030a21c27e4e07ae2b1d2ff64d1f0729c85a, 0x69fe0b9aa64722098d064668bd56a3132e73d275938306ea2b7332c52a21e604, 0x3759e6398bb0be338f79cf843d5212b5c7bd1c5e363a55c394e535204a0c41ac);
    (0x8913a125a3d1ebe84db890e2bcb015f6c24eac9631cca0768fc60a9d95edf73e, 0xf0633bf1e0c4d7df2798aa607077b9109aa37cd5ce4e4cbd84d84cfe91a12154, 0x5d0ad0ee8296cd6968d953856ad2a9f909376c6bc80ea2dae101415026b87d1, 0x18572ea0493ed0927bbe3932008e60b0a0475130960c1cff75ece4f876b4e23c, 0x496603fb9a5d5d3e75e875edaadfcde083bf8737dcb089d3fcdd668ec7853a2d, -0x61b0429e2c126da8580d9dc8d8baeea87c3be4680d83fd2bbdb44179a8c946d7)]);
  (11%positive, (0xe3f6990da3cb2f86debaa830f86828479370b222cf3f3372a196eda2ca2e6db, 0x3013d90c6858c3dfeabdb6aa8c91b137676906c2205643e36ab249bf7e18999e), [
    (0xfa3cf9d58403ed996d23c24a134666722df824348da34d90d4b8cde1ad396ed, 0x3635954789a02e39fb7e54440b6f528d53efd65635ddad7f3c4085f97fdbdc48, 0x45ab99bf03cba8e15c8b1cbb79f3f163937937766c1b1a5218f40e1ea0d164b7, -0x5fd7e30c9e7f03695591311165bb0a5fb2b921ea78b041049a9c217d2cc10318, 0xf49b267b15be9acb9fe6e4f0947ed114d85eb46e24aa3ce922b9776103e81f, 0x3016b98f76092033e16fc69887b853eea9b98fd795fbfcaaa5b7467335ea973);
    (0x80ce6464df5e7f17d52dc53a0e4dfe7e0570432eee1ee75cce5086b5a01e097c, 0x8ff83d8cf12121491609c4939dc11c4aa35503508fe432dc5a5c1905608b9218, 0xb9e151c6d43bdf8daeaa7658ddf1e474ac027189417b08c63e0bb40fc96d0f3, 0x23abfdfb6cc6c3d3145110f19fd42712943cec7929082209d959e60b6fb56bf8, 0x40cf0aca9914f16d778c885adf93677f18feea36f28ad76a7de3c8cba27f0b18, -0x2d29b1f983b04d741c19d0aa264a23bce9e92c1d10ed136b87e3a47baba543b6);
    (0xdaa591ba70f5ed3d77ebf700c5ace89fc7e335d916dbf44ea1d8148d2c5d4395, 0xca3e6bb347570bba9a9082347cb197e4976efb36df02a6061b00f0552a9e9e1c, 0x53c6347f3edc81f357cfb152393200b3c31957f82678f503e1da265f99a99400, -0x22a54393737428cf96d9b8d3330ff9bae1ddeacd9115d897f728a8367fe02a87, 0xbabe6746b5ad30cf6f6ef1db04cbfab5d797b13a8b4e84681798ab70a64cc0c3, -0x31c573b494f7686fda22b6156223aa559e020b8c2bafd2345597148470df0069);
    (0x91b823604162a7dc0dabd56a85eb64e00a21fa3fd75a2f4afde01c9c467eb236, 0x5de77e2b131f327d348f831e3218f188f38465ca8a12a86785211bd76c1aa5d, 0x1487950942c0b240f5eb4c31c336584365fe51c6e37f712b8f1b8d71be3527a2, -0x17ff4a80300444c7dfb85adefe482bb406d62e351c2aefc5a9a55b25b22e20dd0, 0x52f21c85e953360aa8679ecf638cec16c9bcbb66dc54d1414648a87523ba8161, 0x6fc79933576feabadd9c36b315837b7e016e836388910c774b7fa3628de85bd8);
    (0xbe5178a1025d18feae4592e97806ac7883833f534f2754630a4c7976edc5a5ad, 0xe3f6990da3cb2f86debaa830f86828479370b222cf3f3372a196eda2ca2e6db, 0x3013d90c6858c3dfeabdb6aa8c91b137676906c2205643e36ab249bf7e18999e, 0x4882f1041f8fae3ada6da144b5e46d37760eb9b1fa0cffbd7601b2c5127d96cb, 0x8d7d08fc8e3d077f1c6758111959f94ef94f39e2b72f932bd983690de887ab57, -0x63a9dfe70e66674f29560c1ab02ced4cc5644511aeb54c22c83eb2117b5767a)]);
  (13%positive, (0x510781a1e020b2b6c5fc0e01a47270294759d578d49fc85be202070ba08878c7, 0xfd6abb76f02ec4f59f1a3ac9efb46a934ebdbb2a2d57888bb070754c8721dabf), [
    (0xfa3cf9d58403ed996d23c24a134666722df824348da34d90d4b8cde1ad396ed, 0x3635954789a02e39fb7e54440b6f528d53efd65635ddad7f3c4085f97fdbdc48, 0x45ab99bf03cba8e15c8b1cbb79f3f163937937766c1b1a5218f40e1ea0d164b7, -0x5fd7e30c9e7f03695591311165bb0a5fb2b921ea78b041049a9c217d2cc10318, 0xf49b267b15be9acb9fe6e4f0947ed114d85eb46e24aa3ce922b9776103e81f, 0x3016b98f76092033e16fc69887b853eea9b98fd795fbfcaaa5b7467335ea973);
    (0xd03831e7dc86e9047ba15746803e660c4f6b23410376b7569f79cf22d6f31822, 0x6a967ee33d83fcec7fb140d982561934484cbeac324990a21db9c323ec04fac, 0x4622d14904355909ec0da0d297e68f0edadb84370a71e4e1e5598e51d5646e12, 0x280392a9d08fd6b44b68a15f57ea8aa5a4039c7e020e9c3f724eafe370b4d535, 0xa95b5d6ea5864a189980a96c1919e37c4df4b8b1a1ae1559ce8a559a52f4a3a8, 0x26ac54c7665dc01ada409da54cc5290f60eccd642299ea7cf3b3303a397a2e41);
    (0xf83ed69750df791cc7146162f8c99117d185a37873382d9dd2265eb4187d5cf4, 0x94261278d4136e358ad969239809940f6b35332881366ac92fbc20c367067c50, 0xfd43cee69f1de48d1b207d4bd7cc792eff9b1fbe8ca459ddb212d62c2703debc, 0x8780c1034f6e2dbe435cfd7153ac6804a8d56cf2bc5f42439edd181d99870260, 0xf0b9cf31d1dd7b8c8b51561e10af2f3fdb1a5d8f03881473d54a111e08725f98, -0x89338001709714d27a7644ddc488ff6cd36c1ce1ef14b361ab1380e704c74b42);
    (0xe0c0477a0440e2a8ea9b3e59f2fd821b6d1551c0f2bd19881661c3735282eb79, 0x8cdf7134459c11507b1682799c0a6efef205e2bf862444ae62e5e780c23a7299, 0xafd538b76c92bb70a9f889427532f6f82a2da5185679e352d6cbdb4052f359e8, 0xbb7efc2762f2b19201a91b75cf5dcaf381fd760a04c5866b07b399b9eb36fac8, 0xc5510d80d26cd67fa39368a40d2e47b8393e65bb85c7c2d3c2a4d230feb3f588, 0x663441cfe951b9ba3fcf789f0f17db8af328b20218be7f856b033c4f2911415);
    (0x1d65fff25513148975ac3e8d6d1ebbd80ac8bcae4f9a4aa5ee1bb1f13b83e60f, 0x510781a1e020b2b6c5fc0e01a47270294759d578d49fc85be202070ba08878c7, 0xfd6abb76f02ec4f59f1a3ac9efb46a934ebdbb2a2d57888bb070754c8721dabf, -0x44d7c470d9857e6b362fef387f47d2182880279e74f5294f1c062c130b9634d, 0x36044a0dc621e96506239745ac6b0e1f8ea13deff86fecb33e20ac784c6c087, 0x6df4e29d7e7773cf25b135d528e7576e3820ee2eb26a18c4e5afa7cfee25309)]);
  (15%positive, (0x96358120ce7913d5b4dc4d082f8d78d3c655f0b1f06bc07613dcf69fae9694c6, 0xdf4a8d568c1a6fedfc5d182f0a3a0e65e02996283d162d50340f0a24e605eeed), [
    (0xfa3cf9d58403ed996d23c24a134666722df824348da34d90d4b8cde1ad396ed, 0x3635954789a02e39fb7e54440b6f528d53efd65635ddad7f3c4085f97fdbdc48, 0x45ab99bf03cba8e15c8b1cbb79f3f163937937766c1b1a5218f40e1ea0d164b7, -0x5fd7e30c9e7f03695591311165bb0a5fb2b921ea78b041049a9c217d2cc10318, 0xf49b267b15be9acb9fe6e4f0947ed114d85eb46e24aa3ce922b9776103e81f, 0x3016b98f76092033e16fc69887b853eea9b98fd795fbfcaaa5b7467335ea973);
    (0xd03831e7dc86e9047ba15746803e660c4f6b23410376b7569f79cf22d6f31822, 0x6a967ee33d83fcec7fb140d982561934484cbeac324990a21db9c323ec04fac, 0x4622d14904355909ec0da0d297e68f0edadb84370a71e4e1e5598e51d5646e12, 0x280392a9d08fd6b44b68a15f57ea8aa5a4039c7e020e9c3f724eafe370b4d535, 0xa95b5d6ea5864a189980a96c1919e37c4df4b8b1a1ae1559ce8a559a52f4a3a8, 0x26ac54c7665dc01ada409da54cc5290f60eccd642299ea7cf3b3303a397a2e41);
    (0xf83ed69750df791cc7146162f8c99117d185a37873382d9dd2265eb4187d5cf4, 0x94261278d4136e358ad969239809940f6b35332881366ac92fbc20c367067c50, 0xfd43cee69f1de48d1b207d4bd7cc792eff9b1fbe8ca459ddb212d62c2703debc, 0x8780c1034f6e2dbe435cfd7153ac6804a8d56cf2bc5f42439edd181d99870260, 0xf0b9cf31d1dd7b8c8b51561e10af2f3fdb1a5d8f03881473d54a111e08725f98, -0x89338001709714d27a7644ddc488ff6cd36c1ce1ef14b361ab1380e704c74b42);
    (0xcf0a4ab8bf64f053b54620c36dc1e222e80f4bd10dad220c9bcf4a24760d9f8e, 0xd68e300b812b95bd1ee66b81b75dcaae122977950348a49eab30bca762b09f5a, 0x707beb0bbb14df65241eb676c38e986933757d64f6379892579a92708a62ab0c, -0x242fadcfb4cc0d5b97f60489ef45416b7672239ddf11cc2d2599631002e0e890, 0xa771a540b1c3848430d336014605862bbb2d171c2bd0bc4507863fbf0a6df93e, -0x35b4db5cc6b8cf70dfbd714d3b51946ce0977c9aa7ed63a910d2b767e4eb8cec);
    (0x49b4f4d11059eba97c63fdd19b3b60cfbe7ea4f0c2a5420765550a56a462b929, 0xe8c4ae561d86ce744528aaebb741a72b661f00fc5ead6a790e29206d4c7967a1, 0xe35d6687dff7f568819b893fdb885f56267723ddea9dd439df821c8083b4a0a6, -0x1dab064728b41cdc892de6b58e3d8da48c0f30234aa5ba8652dbc8d1206d4072c, 0x1538b3886b7178c12c61304514bbc0b501e2849251554d110b505f9855398684, -0x53e69bee311f8db59af17000f4e6ba48bc1e452fc820f9b2280a166e2b829bf);
    (0xd864b35ad1a9458635ebf4b33226070f3c211fcec7e86ccd7102c8e8c0beaf8d, 0x96358120ce7913d5b4dc4d082f8d78d3c655f0b1f06bc07613dcf69fae9694c6, 0xdf4a8d568c1a6fedfc5d182f0a3a0e65e02996283d162d50340f0a24e605eeed, -0x6d59488225505bdca291407a5ef25cbdb307ecbca4c9d17ea036bf1f538a9365, 0xb6ea1645de6992fb99ccb27d74da164306bdc384f43ae7f0a35ce6c8c43e2996, 0x45c947ea0a161cb0514172074d85398a08576f4ca74f3da0bbee2096173ab9b4)]);
  (20%positive, (0x382ae8e1555a26a30a89b2aea7a23f333aa35e3a29a0bb5492394ad1d0499f3b, 0x69d6ed57ea9f984d7f48919bf1166605d411330de7f2319d86f3f4b6e67bedb5), [
    (0xfa3cf9d58403ed996d23c24a134666722df824348da34d90d4b8cde1ad396ed, 0x3635954789a02e39fb7e54440b6f528d53efd65635ddad7f3c4085f97fdbdc48, 0x45ab99bf03cba8e15c8b1cbb79f3f163937937766c1b1a5218f40e1ea0d164b7, -0x5fd7e30c9e7f03695591311165bb0a5fb2b921ea78b041049a9c217d2cc10318, 0xf49b267b15be9acb9fe6e4f0947ed114d85eb46e24aa3ce922b9776103e81f, 0x3016b98f76092033e16fc69887b853eea9b98fd795fbfcaaa5b7467335ea973);
    (0x80ce6464df5e7f17d52dc53a0e4dfe7e0570432eee1ee75cce5086b5a01e097c, 0x8ff83d8cf12121491609c4939dc11c4aa35503508fe432dc5a5c1905608b9218, 0xb9e151c6d43bdf8daeaa7658ddf1e474ac027189417b08c63e0bb40fc96d0f3, 0x23abfdfb6cc6c3d3145110f19fd42712943cec7929082209d959e60b6fb56bf8, 0x40cf0aca9914f16d778c885adf93677f18feea36f28ad76a7de3c8cba27f0b18, -0x2d29b1f983b04d741c19d0aa264a23bce9e92c1d10ed136b87e3a47baba543b6);
    (0xdaa591ba70f5ed3d77ebf700c5ace89fc7e335d916dbf44ea1d8148d2c5d4395, 0xca3e6bb347570bba9a9082347cb197e4976efb36df02a6061b00f0552a9e9e1c, 0x53c6347f3edc81f357cfb152393200b3c31957f82678f503e1da265f99a99400, -0x22a54393737428cf96d9b8d3330ff9bae1ddeacd9115d897f728a8367fe02a87, 0xbabe6746b5ad30cf6f6ef1db04cbfab5d797b13a8b4e84681798ab70a64cc0c3, -0x31c573b494f7686fda22b6156223aa559e020b8c2bafd2345597148470df0069);
    (0x91b823604162a7dc0dabd56a85eb64e00a21fa3fd75a2f4afde01c9c467eb236, 0x5de77e2b131f327d348f831e3218f188f38465ca8a12a86785211bd76c1aa5d, 0x1487950942c0b240f5eb4c31c336584365fe51c6e37f712b8f1b8d71be3527a2, -0x17ff4a80300444c7dfb85adefe482bb406d62e351c2aefc5a9a55b25b22e20dd0, 0x52f21c85e953360aa8679ecf638cec16c9bcbb66dc54d1414648a87523ba8161, 0x6fc79933576feabadd9c36b315837b7e016e836388910c774b7fa3628de85bd8);
    (0xeea737ac1aa745b963302790c08d157d24fdf62d08f4a8919446e6168334ba3e, 0x382ae8e1555a26a30a89b2aea7a23f333aa35e3a29a0bb5492394ad1d0499f3b, 0x69d6ed57ea9f984d7f48919bf1166605d411330de7f2319d86f3f4b6e67bedb5, 0x25df94e686009181d4b5c01f1e0297795aafd4b642b12449483a04fcc7a2a073, 0xde7b58bdb03533095fceb39671998fdb94327e3c600ddd337ecc56b380281f21, -0x2ee3ebdaaf99b77baac9c3c6fcd2b093e39b7c191da82a2f9ec650e58b47e4d5)]);
  (22%positive, (0x311e4342ff328ac5a2e95982170a0a3ac1e5850add6659bfd91697027467d763, 0xee1b2fedf06faa36a8aec1625d0f1204ade080c55ce7fe6e137068ca931052f), [
    (0xfa3cf9d58403ed996d23c24a134666722df824348da34d90d4b8cde1ad396ed, 0x3635954789a02e39fb7e54440b6f528d53efd65635ddad7f3c4085f97fdbdc48, 0x45ab99bf03cba8e15c8b1cbb79f3f163937937766c1b1a5218f40e1ea0d164b7, -0x5fd7e30c9e7f03695591311165bb0a5fb2b921ea78b041049a9c217d2cc10318, 0xf49b267b15be9acb9fe6e4f0947ed114d85eb46e24aa3ce922b9776103e81f, 0x3016b98f76092033e16fc69887b853eea9b98fd795fbfcaaa5b7467335ea973);
    (0x80ce6464df5e7f17d52dc53a0e4dfe7e0570432eee1ee75cce5086b5a01e097c, 0x8ff83d8cf12121491609c4939dc11c4aa35503508fe432dc5a5c1905608b9218, 0xb9e151c6d43bdf8daeaa7658ddf1e474ac027189417b08c63e0bb40fc96d0f3, 0x23abfdfb6cc6c3d3145110f19fd42712943cec7929082209d959e60b6fb56bf8, 0x40cf0aca9914f16d778c885adf93677f18feea36f28ad76a7de3c8cba27f0b18, -0x2d29b1f983b04d741c19d0aa264a23bce9e92c1d10ed136b87e3a47baba543b6);
    (0xdaa591ba70f5ed3d77ebf700c5ace89fc7e335d916dbf44ea1d8148d2c5d4395, 0xca3e6bb347570bba9a9082347cb197e4976efb36df02a6061b00f0552a9e9e1c, 0x53c6347f3edc81f357cfb152393200b3c31957f82678f503e1da265f99a99400, -0x22a54393737428cf96d9b8d3330ff9bae1ddeacd9115d897f728a8367fe02a87, 0xbabe6746b5ad30cf6f6ef1db04cbfab5d797b13a8b4e84681798ab70a64cc0c3, -0x31c573b494f7686fda22b6156223aa559e020b8c2bafd2345597148470df0069);
    (0x91b823604162a7dc0dabd56a85eb64e00a21fa3fd75a2f4afde01c9c467eb236, 0x5de77e2b131f327d348f831e3218f188f38465ca8a12a86785211bd76c1aa5d, 0x1487950942c0b240f5eb4c31c336584365fe51c6e37f712b8f1b8d71be3527a2, -0x17ff4a80300444c7dfb85adefe482bb406d62e351c2aefc5a9a55b25b22e20dd0, 0x52f21c85e953360aa8679ecf638cec16c9bcbb66dc54d1414648a87523ba8161, 0x6fc79933576feabadd9c36b315837b7e016e836388910c774b7fa3628de85bd8);
    (0xbe5178a1025d18feae4592e97806ac7883833f534f2754630a4c7976edc5a5ad, 0xe3f6990da3cb2f86debaa830f86828479370b222cf3f3372a196eda2ca2e6db, 0x3013d90c6858c3dfeabdb6aa8c91b137676906c2205643e36ab249bf7e18999e, 0x4882f1041f8fae3ada6da144b5e46d37760eb9b1fa0cffbd7601b2c5127d96cb, 0x8d7d08fc8e3d077f1c6758111959f94ef94f39e2b72f932bd983690de887ab57, -0x63a9dfe70e66674f29560c1ab02ced4cc5644511aeb54c22c83eb2117b5767a);
    (0xfe9e626b182584e6fbeb8dde44610c58cd6246a42da7eabddfe85a0c6d5589f, 0x311e4342ff328ac5a2e95982170a0a3ac1e5850add6659bfd91697027467d763, 0xee1b2fedf06faa36a8aec1625d0f1204ade080c55ce7fe6e137068ca931052f, 0x399303fd54ce3e0174911f6e53ad0b1f2835a613e214d4f870f5b43adc8b417, 0xfd3ead4a25f26d54546b64aa1c93c158284ab22cb59050ff3e34b4dc2b9ad8, -0x22aeaef10263ec2ce396937738e4551cd4be7baeb830cb88497c4ec2bd356cb)]);
  (26%positive, (0x685ea97994545c4accfe19052a1888d92c966cafd65df115f8f3dbd17a4e257b, 0x4ada4d9ec88db940761b7e52df25f5b4c24bf6de1358b7cbf677f40305349fda), [
    (0xfa3cf9d58403ed996d23c24a134666722df824348da34d90d4b8cde1ad396ed, 0x3635954789a02e39fb7e54440b6f528d53efd65635ddad7f3c4085f97fdbdc48, 0x45ab99bf03cba8e15c8b1cbb79f3f163937937766c1b1a5218f40e1ea0d164b7, -0x5fd7e30c9e7f03695591311165bb0a5fb2b921ea78b041049a9c217d2cc10318, 0xf49b267b15be9acb9fe6e4f0947ed114d85eb46e24aa3ce922b9776103e81f, 0x3016b98f76092033e16fc69887b853eea9b98fd795fbfcaaa5b7467335ea973);
    (0xd03831e7dc86e9047ba15746803e660c4f6b23410376b7569f79cf22d6f31822, 0x6a967ee33d83fcec7fb140d982561934484cbeac324990a21db9c323ec04fac, 0x4622d14904355909ec0da0d297e68f0edadb84370a71e4e1e5598e51d5646e12, 0x280392a9d08fd6b44b68a15f57ea8aa5a4039c7e020e9c3f724eafe370b4d535, 0xa95b5d6ea5864a189980a96c1919e37c4df4b8b1a1ae1559ce8a559a52f4a3a8, 0x26ac54c7665dc01ada409da54cc5290f60eccd642299ea7cf3b3303a397a2e41);
    (0xf83ed69750df791cc7146162f8c99117d185a37873382d9dd2265eb4187d5cf4, 0x94261278d4136e358ad969239809940f6b35332881366ac92fbc20c367067c50, 0xfd43cee69f1de48d1b207d4bd7cc792eff9b1fbe8ca459ddb212d62c2703debc, 0x8780c1034f6e2dbe435cfd7153ac6804a8d56cf2bc5f42439edd181d99870260, 0xf0b9cf31d1dd7b8c8b51561e10af2f3fdb1a5d8f03881473d54a111e08725f98, -0x89338001709714d27a7644ddc488ff6cd36c1ce1ef14b361ab1380e704c74b42);
    (0xe0c0477a0440e2a8ea9b3e59f2fd821b6d1551c0f2bd19881661c3735282eb79, 0x8cdf7134459c11507b1682799c0a6efef205e2bf862444ae62e5e780c23a7299, 0xafd538b76c92bb70a9f889427532f6f82a2da5185679e352d6cbdb4052f359e8, 0xbb7efc2762f2b19201a91b75cf5dcaf381fd760a04c5866b07b399b9eb36fac8, 0xc5510d80d26cd67fa39368a40d2e47b8393e65bb85c7c2d3c2a4d230feb3f588, 0x663441cfe951b9ba3fcf789f0f17db8af328b20218be7f856b033c4f2911415);
    (0x1d65fff25513148975ac3e8d6d1ebbd80ac8bcae4f9a4aa5ee1bb1f13b83e60f, 0x510781a1e020b2b6c5fc0e01a47270294759d578d49fc85be202070ba08878c7, 0xfd6abb76f02ec4f59f1a3ac9efb46a934ebdbb2a2d57888bb070754c8721dabf, -0x44d7c470d9857e6b362fef387f47d2182880279e74f5294f1c062c130b9634d, 0x36044a0dc621e96506239745ac6b0e1f8ea13deff86fecb33e20ac784c6c087, 0x6df4e29d7e7773cf25b135d528e7576e3820ee2eb26a18c4e5afa7cfee25309);
    (0x921ab3e2727721a198b05f62f997ac08e12cb37e96ed82f98e01395e76e2968b, 0x685ea97994545c4accfe19052a1888d92c966cafd65df115f8f3dbd17a4e257b, 0x4ada4d9ec88db940761b7e52df25f5b4c24bf6de1358b7cbf677f40305349fda, 0xd4515ae2fa5de7751c83243271aaa642ec92645ecdb46a8a9357979c6c003d59, 0x536277f752f596f00d89dedcb63c9f1f92d56e3ca7c14133f48c238ba4682290, -0xd5223f9a6ea6fb565988cc24f8fd8db9c845c691995c31a9b6f364775e61ebb)]);
  (44%positive, (0xd7f17ab123c4b83e8fa20ecee2f9bd1589cf9984b9f13a2470e7e523a768d2f8, 0xc46aaea83592ff3e607405ea5efb3ae37bfd51f89b32ae64db88501eb9dc0e46), [
    (0xfa3cf9d58403ed996d23c24a134666722df824348da34d90d4b8cde1ad396ed, 0x3635954789a02e39fb7e54440b6f528d53efd65635ddad7f3c4085f97fdbdc48, 0x45ab99bf03cba8e15c8b1cbb79f3f163937937766c1b1a5218f40e1ea0d164b7, -0x5fd7e30c9e7f03695591311165bb0a5fb2b921ea78b041049a9c217d2cc10318, 0xf49b267b15be9acb9fe6e4f0947ed114d85eb46e24aa3ce922b9776103e81f, 0x3016b98f76092033e16fc69887b853eea9b98fd795fbfcaaa5b7467335ea973);
    (0x80ce6464df5e7f17d52dc53a0e4dfe7e0570432eee1ee75cce5086b5a01e097c, 0x8ff83d8cf12121491609c4939dc11c4aa35503508fe432dc5a5c1905608b9218, 0xb9e151c6d43bdf8daeaa7658ddf1e474ac027189417b08c63e0bb40fc96d0f3, 0x23abfdfb6cc6c3d3145110f19fd42712943cec7929082209d959e60b6fb56bf8, 0x40cf0aca9914f16d778c885adf93677f18feea36f28ad76a7de3c8cba27f0b18, -0x2d29b1f983b04d741c19d0aa264a23bce9e92c1d10ed136b87e3a47baba543b6);
    (0xdaa591ba70f5ed3d77ebf700c5ace89fc7e335d916dbf44ea1d8148d2c5d4395, 0xca3e6bb347570bba9a9082347cb197e4976efb36df02a6061b00f0552a9e9e1c, 0x53c6347f3edc81f357cfb152393200b3c31957f82678f503e1da265f99a99400, -0x22a54393737428cf96d9b8d3330ff9bae1ddeacd9115d897f728a8367fe02a87, 0xbabe6746b5ad30cf6f6ef1db04cbfab5d797b13a8b4e84681798ab70a64cc0c3, -0x31c573b494f7686fda22b6156223aa559e020b8c2bafd2345597148470df0069);
    (0x91b823604162a7dc0dabd56a85eb64e00a21fa3fd75a2f4afde01c9c467eb236, 0x5de77e2b131f327d348f831e3218f188f38465ca8a12a86785211bd76c1aa5d, 0x1487950942c0b240f5eb4c31c336584365fe51c6e37f712b8f1b8d71be3527a2, -0x17ff4a80300444c7dfb85adefe482bb406d62e351c2aefc5a9a55b25b22e20dd0, 0x52f21c85e953360aa8679ecf638cec16c9bcbb66dc54d1414648a87523ba8161, 0x6fc79933576feabadd9c36b315837b7e016e836388910c774b7fa3628de85bd8);
    (0xbe5178a1025d18feae4592e97806ac7883833f534f2754630a4c7976edc5a5ad, 0xe3f6990da3cb2f86debaa830f86828479370b222cf3f3372a196eda2ca2e6db, 0x3013d90c6858c3dfeabdb6aa8c91b137676906c2205643e36ab249bf7e18999e, 0x4882f1041f8fae3ada6da144b5e46d37760eb9b1fa0cffbd7601b2c5127d96cb, 0x8d7d08fc8e3d077f1c6758111959f94ef94f39e2b72f932bd983690de887ab57, -0x63a9dfe70e66674f29560c1ab02ced4cc5644511aeb54c22c83eb2117b5767a);
    (0xfe9e626b182584e6fbeb8dde44610c58cd6246a42da7eabddfe85a0c6d5589f, 0x311e4342ff328ac5a2e95982170a0a3ac1e5850add6659bfd91697027467d763, 0xee1b2fedf06faa36a8aec1625d0f1204ade080c55ce7fe6e137068ca931052f, 0x399303fd54ce3e0174911f6e53ad0b1f2835a613e214d4f870f5b43adc8b417, 0xfd3ead4a25f26d54546b64aa1c93c158284ab22cb59050ff3e34b4dc2b9ad8, -0x22aeaef10263ec2ce396937738e4551cd4be7baeb830cb88497c4ec2bd356cb);
    (0x10fc150c2c50e4b828a1ff006b51c49d0c86ce4ac0aa6b4f5db1387ab4072a55, 0xd7f17ab123c4b83e8fa20ecee2f9bd1589cf9984b9f13a2470e7e523a768d2f8, 0xc46aaea83592ff3e607405ea5efb3ae37bfd51f89b32ae64db88501eb9dc0e46, -0x1a4c46cfbdde5982ce90da46c9b4561ad6419b96025640d977ac33efef1eb46b, 0x1207adaf73c5bb2c46bceeb86ad1cf6b35f3a9e6e0722df6bde9845f3145375, -0xb117918b508c97a66c6ad24b80bc0ad30a6508409b2bca1fcb78f7ef81b0f72)]);
  (48%positive, (0x632e278bd1a020ed54b94663db7bb31da0b6fb6783c22af0e5e3a883946104f5, 0x3f754e1d3fb0783654ac7256bff3b8bd34735c48a04ff50dd9445655440c2a8b), [
    (0xfa3cf9d58403ed996d23c24a134666722df824348da34d90d4b8cde1ad396ed, 0x3635954789a02e39fb7e54440b6f528d53efd65635ddad7f3c4085f97fdbdc48, 0x45ab99bf03cba8e15c8b1cbb79f3f163937937766c1b1a5218f40e1ea0d164b7, -0x5fd7e30c9e7f03695591311165bb0a5fb2b921ea78b041049a9c217d2cc10318, 0xf49b267b15be9acb9fe6e4f0947ed114d85eb46e24aa3ce922b9776103e81f, 0x3016b98f76092033e16fc69887b853eea9b98fd795fbfcaaa5b7467335ea973);
    (0xd03831e7dc86e9047ba15746803e660c4f6b23410376b7569f79cf22d6f31822, 0x6a967ee33d83fcec7fb140d982561934484cbeac324990a21db9c323ec04fac, 0x4622d14904355909ec0da0d297e68f0edadb84370a71e4e1e5598e51d5646e12, 0x280392a9d08fd6b44b68a15f57ea8aa5a4039c7e020e9c3f724eafe370b4d535, 0xa95b5d6ea5864a189980a96c1919e37c4df4b8b1a1ae1559ce8a559a52f4a3a8, 0x26ac54c7665dc01ada409da54cc5290f60eccd642299ea7cf3b3303a397a2e41);
    (0xf83ed69750df791cc7146162f8c99117d185a37873382d9dd2265eb4187d5cf4, 0x94261278d4136e358ad969239809940f6b35332881366ac92fbc20c367067c50, 0xfd43cee69f1de48d1b207d4bd7cc792eff9b1fbe8ca459ddb212d62c2703debc, 0x8780c1034f6e2dbe435cfd7153ac6804a8d56cf2bc5f42439edd181d99870260, 0xf0b9cf31d1dd7b8c8b51561e10af2f3fdb1a5d8f03881473d54a111e08725f98, -0x89338001709714d27a7644ddc488ff6cd36c1ce1ef14b361ab1380e704c74b42);
    (0xe0c0477a0440e2a8ea9b3e59f2fd821b6d1551c0f2bd19881661c3735282eb79, 0x8cdf7134459c11507b1682799c0a6efef205e2bf862444ae62e5e780c23a7299, 0xafd538b76c92bb70a9f889427532f6f82a2da5185679e352d6cbdb4052f359e8, 0xbb7efc2762f2b19201a91b75cf5dcaf381fd760a04c5866b07b399b9eb36fac8, 0xc5510d80d26cd67fa39368a40d2e47b8393e65bb85c7c2d3c2a4d230feb3f588, 0x663441cfe951b9ba3fcf789f0f17db8af328b20218be7f856b033c4f2911415);
    (0x8d5e3d1942eea089c9745e8d7bd6d929cff5ab05723dece0ddc5d00c1d301950, 0xa8011a4f2370fdacfdaac25dfba907fa44f0ee042b4ed56c3bb7dbcc9f0dd96b, 0x265af6e8eda569af98626dce8208eb3a0c9e7037b216eecc565ba29b60df18db, -0x265d1f88c0dde0da3c86d6dbcfb857ce82abbdf80a0fcf7e867157d89582f41d, 0x4e10f1fec0dd107989b70fbe08da9cc19370b923bd51f873d8acb8ef183d940d, -0xefb86f996b89cc0ec39e7bbc7abb0b6df7402e3a656012e62766124dd4d380d);
    (0x8ee29dc3a69f44011909941596493e8ba2656be20e9e57136e4199d8b8032ab8, 0x632e278bd1a020ed54b94663db7bb31da0b6fb6783c22af0e5e3a883946104f5, 0x3f754e1d3fb0783654ac7256bff3b8bd34735c48a04ff50dd9445655440c2a8b, -0x11ff385ceb3419942dbbf084a031a3441e0971eabbc7a8a5e9e4a8811095ac695, 0x4fc02f9ffb84708be634b6da44f6c92e5de8f80de492dcb2789d3b9e6926449b, 0x2669ef4ca02c63815cca09d9869712c8d92966d57bcd1db5f0b3707a0595bcb6)]);
  (52%positive, (0xd9edde5b1f2df4ae0491bd211d3074295b1269d78fc3548448e5698c45a30583, 0x3ce950866c30afcab8e33e384ca4dde6a4876d3501d13f60d5baf5b10f551b52), [
    (0xfa3cf9d58403ed996d23c24a134666722df824348da34d90d4b8cde1ad396ed, 0x3635954789a02e39fb7e54440b6f528d53efd65635ddad7f3c4085f97fdbdc48, 0x45ab99bf03cba8e15c8b1cbb79f3f163937937766c1b1a5218f40e1ea0d164b7, -0x5fd7e30c9e7f03695591311165bb0a5fb2b921ea78b041049a9c217d2cc10318, 0xf49b267b15be9acb9fe6e4f0947ed114d85eb46e24aa3ce922b9776103e81f, 0x3016b98f76092033e16fc69887b853eea9b98fd795fbfcaaa5b7467335ea973);
    (0xd03831e7dc86e9047ba15746803e660c4f6b23410376b7569f79cf22d6f31822, 0x6a967ee33d83fcec7fb140d982561934484cbeac324990a21db9c323ec04fac, 0x4622d14904355909ec0da0d297e68f0edadb84370a71e4e1e5598e51d5646e12, 0x280392a9d08fd6b44b68a15f57ea8aa5a4039c7e020e9c3f724eafe370b4d535, 0xa95b5d6ea5864a189980a96c1919e37c4df4b8b1a1ae1559ce8a559a52f4a3a8, 0x26ac54c7665dc01ada409da54cc5290f60eccd642299ea7cf3b3303a397a2e41);
    (0xf83ed69750df791cc7146162f8c99117d185a37873382d9dd2265eb4187d5cf4, 0x94261278d4136e358ad969239809940f6b35332881366ac92fbc20c367067c50, 0xfd43cee69f1de48d1b207d4bd7cc792eff9b1fbe8ca459ddb212d62c2703debc, 0x8780c1034f6e2dbe435cfd7153ac6804a8d56cf2bc5f42439edd181d99870260, 0xf0b9cf31d1dd7b8c8b51561e10af2f3fdb1a5d8f03881473d54a111e08725f98, -0x89338001709714d27a7644ddc488ff6cd36c1ce1ef14b361ab1380e704c74b42);
    (0xe0c0477a0440e2a8ea9b3e59f2fd821b6d1551c0f2bd19881661c3735282eb79, 0x8cdf7134459c11507b1682799c0a6efef205e2bf862444ae62e5e780c23a7299, 0xafd538b76c92bb70a9f889427532f6f82a2da5185679e352d6cbdb4052f359e8, 0xbb7efc2762f2b19201a91b75cf5dcaf381fd760a04c5866b07b399b9eb36fac8, 0xc5510d80d26cd67fa39368a40d2e47b8393e65bb85c7c2d3c2a4d230feb3f588, 0x663441cfe951b9ba3fcf789f0f17db8af328b20218be7f856b033c4f2911415);
    (0x1d65fff25513148975ac3e8d6d1ebbd80ac8bcae4f9a4aa5ee1bb1f13b83e60f, 0x510781a1e020b2b6c5fc0e01a47270294759d578d49fc85be202070ba08878c7, 0xfd6abb76f02ec4f59f1a3ac9efb46a934ebdbb2a2d57888bb070754c8721dabf, -0x44d7c470d9857e6b362fef387f47d2182880279e74f5294f1c062c130b9634d, 0x36044a0dc621e96506239745ac6b0e1f8ea13deff86fecb33e20ac784c6c087, 0x6df4e29d7e7773cf25b135d528e7576e3820ee2eb26a18c4e5afa7cfee25309);
    (0x921ab3e2727721a198b05f62f997ac08e12cb37e96ed82f98e01395e76e2968b, 0x685ea97994545c4accfe19052a1888d92c966cafd65df115f8f3dbd17a4e257b, 0x4ada4d9ec88db940761b7e52df25f5b4c24bf6de1358b7cbf677f40305349fda, 0xd4515ae2fa5de7751c83243271aaa642ec92645ecdb46a8a9357979c6c003d59, 0x536277f752f596f00d89dedcb63c9f1f92d56e3ca7c14133f48c238ba4682290, -0xd5223f9a6ea6fb565988cc24f8fd8db9c845c691995c31a9b6f364775e61ebb);
    (0x8a5456dc099dc124592afad27bc77df89764e30c11fc13a9cc09a4898566a38c, 0xd9edde5b1f2df4ae0491bd211d3074295b1269d78fc3548448e5698c45a30583, 0x3ce950866c30afcab8e33e384ca4dde6a4876d3501d13f60d5baf5b10f551b52, -0x2ec2785d90958f02aff8f7da2c81f7781399e2f085fe256602438c80a56c1715, 0x4abf096e583cf7587541b5ccb08b0b9fea1654f937be113766ad58bf307b3499, -0x3d5c9c06a5f415605b773e3018cef271b0cdba41c23c8140ce7d0160af1a4234)]);
  (92%positive, (0x680ac7df572096525680a4eb209b9a215cb6c382de503ff553457a0fcbf094ec, 0xb41f8c96abfbd2734ddeaa0933c0b0d45fc5dab6bc90fa511062c4817ddfd2e6), [
    (0xfa3cf9d58403ed996d23c24a134666722df824348da34d90d4b8cde1ad396ed, 0x3635954789a02e39fb7e54440b6f528d53efd65635ddad7f3c4085f97fdbdc48, 0x45ab99bf03cba8e15c8b1cbb79f3f163937937766c1b1a5218f40e1ea0d164b7, -0x5fd7e30c9e7f03695591311165bb0a5fb2b921ea78b041049a9c217d2cc10318, 0xf49b267b15be9acb9fe6e4f0947ed114d85eb46e24aa3ce922b9776103e81f, 0x3016b98f76092033e16fc69887b853eea9b98fd795fbfcaaa5b7467335ea973);
    (0x80ce6464df5e7f17d52dc53a0e4dfe7e0570432eee1ee75cce5086b5a01e097c, 0x8ff83d8cf12121491609c4939dc11c4aa35503508fe432dc5a5c1905608b9218, 0xb9e151c6d43bdf8daeaa7658ddf1e474ac027189417b08c63e0bb40fc96d0f3, 0x23abfdfb6cc6c3d3145110f19fd42712943cec7929082209d959e60b6fb56bf8, 0x40cf0aca9914f16d778c885adf93677f18feea36f28ad76a7de3c8cba27f0b18, -0x2d29b1f983b04d741c19d0aa264a23bce9e92c1d10ed136b87e3a47baba543b6);
    (0xdaa591ba70f5ed3d77ebf700c5ace89fc7e335d916dbf44ea1d8148d2c5d4395, 0xca3e6bb347570bba9a9082347cb197e4976efb36df02a6061b00f0552a9e9e1c, 0x53c6347f3edc81f357cfb152393200b3c31957f82678f503e1da265f99a99400, -0x22a54393737428cf96d9b8d3330ff9bae1ddeacd9115d897f728a8367fe02a87, 0xbabe6746b5ad30cf6f6ef1db04cbfab5d797b13a8b4e84681798ab70a64cc0c3, -0x31c573b494f7686fda22b6156223aa559e020b8c2bafd2345597148470df0069);
    (0x91b823604162a7dc0dabd56a85eb64e00a21fa3fd75a2f4afde01c9c467eb236, 0x5de77e2b131f327d348f831e3218f188f38465ca8a12a86785211bd76c1aa5d, 0x1487950942c0b240f5eb4c31c336584365fe51c6e37f712b8f1b8d71be3527a2, -0x17ff4a80300444c7dfb85adefe482bb406d62e351c2aefc5a9a55b25b22e20dd0, 0x52f21c85e953360aa8679ecf638cec16c9bcbb66dc54d1414648a87523ba8161, 0x6fc79933576feabadd9c36b315837b7e016e836388910c774b7fa3628de85bd8);
    (0xbe5178a1025d18feae4592e97806ac7883833f534f2754630a4c7976edc5a5ad, 0xe3f6990da3cb2f86debaa830f86828479370b222cf3f3372a196eda2ca2e6db, 0x3013d90c6858c3dfeabdb6aa8c91b137676906c2205643e36ab249bf7e18999e, 0x4882f1041f8fae3ada6da144b5e46d37760eb9b1fa0cffbd7601b2c5127d96cb, 0x8d7d08fc8e3d077f1c6758111959f94ef94f39e2b72f932bd983690de887ab57, -0x63a9dfe70e66674f29560c1ab02ced4cc5644511aeb54c22c83eb2117b5767a);
    (0xfe9e626b182584e6fbeb8dde44610c58cd6246a42da7eabddfe85a0c6d5589f, 0x311e4342ff328ac5a2e95982170a0a3ac1e5850add6659bfd91697027467d763, 0xee1b2fedf06faa36a8aec1625d0f1204ade080c55ce7fe6e137068ca931052f, 0x399303fd54ce3e0174911f6e53ad0b1f2835a613e214d4f870f5b43adc8b417, 0xfd3ead4a25f26d54546b64aa1c93c158284ab22cb59050ff3e34b4dc2b9ad8, -0x22aeaef10263ec2ce396937738e4551cd4be7baeb830cb88497c4ec2bd356cb);
    (0x83b644b216eb82339f3561d36765b64042455413e93a172e5b8b5f11d9a70c83, 0xc2416818c82f3f2f7f911a7ad947a3dbbb32d6560d28b8009a6419cb17357a16, 0x311ac51f82a209e624fd1485c096ffecaf3220c3518541bf26606587113223be, 0x1bee43c963de46a4e5e593fa0112ef4a3ba8a1593a238f69736404c73ee2d5ce, 0x43c40c14031cb62ef510d16c62f966fbb2fd1d25506d13fe2ad3405ddb7c72a8, -0x4aac51c7e30d24419b4b7cfa1fe2456e2779f75d6998940afbc83b6c0a56ba5a);
    (0x25235b07c2be3b5efeba8207e0779c50a68fa9d647d0bdf5fa72b5ae47428409, 0x6576388290d3d560935f11a763451d3e5bfc6286b990ed1f45fd316fd1446cab, 0xf569b5038d4469d4a6c2ab32a7e5301d4be6adb6222ce200f8a70952dffc1fcb, -0x1abf64a39be42ef611c121c9c43a1c8031040e4b503ad0901e2f2a9f520a206b0, 0x5633d3242c8c1dd2a5d38388488607e582330d2b4ec15a37ea87c67ecc86fa6, 0xd762ea7419968f5cbe2a0a7662450230f082a70f7919ffa69c52151c65e61e6);
    (0x615d9a438850dde88a9fdb420ca328833af061724c6411b06519081ae3720ffb, 0x680ac7df572096525680a4eb209b9a215cb6c382de503ff553457a0fcbf094ec, 0xb41f8c96abfbd2734ddeaa0933c0b0d45fc5dab6bc90fa511062c4817ddfd2e6, 0x420a14315cc0bac49101151b9896cce0fa6431cc89ba5e69810c9b4952591649, 0x250811209f53a4bd61e7d020c404de78903b82dc23c5c84097996ea4036c32d9, -0xfb3bd848563062730cfe2af0a6b299e763d5207a9727f4bc4b1cf87d90a654)]);
  (96%positive, (0x85083e5053f033dfe6d638a34d02f510531a4c50edec3d1b7713bd0477029cfe, 0xf5c1aa6d01b3bb8887dcdf77610d45074f92519aa4f73ef92cd039fe75cc35aa), [
    (0xfa3cf9d58403ed996d23c24a134666722df824348da34d90d4b8cde1ad396ed, 0x3635954789a02e39fb7e54440b6f528d53efd65635ddad7f3c4085f97fdbdc48, 0x45ab99bf03cba8e15c8b1cbb79f3f163937937766c1b1a5218f40e1ea0d164b7, -0x5fd7e30c9e7f03695591311165bb0a5fb2b921ea78b041049a9c217d2cc10318, 0xf49b267b15be9acb9fe6e4f0947ed114d85eb46e24aa3ce922b9776103e81f, 0x3016b98f76092033e16fc69887b853eea9b98fd795fbfcaaa5b7467335ea973);
    (0xd03831e7dc86e9047ba15746803e660c4f6b23410376b7569f79cf22d6f31822, 0x6a967ee33d83fcec7fb140d982561934484cbeac324990a21db9c323ec04fac, 0x4622d14904355909ec0da0d297e68f0edadb84370a71e4e1e5598e51d5646e12, 0x280392a9d08fd6b44b68a15f57ea8aa5a4039c7e020e9c3f724eafe370b4d535, 0xa95b5d6ea5864a189980a96c1919e37c4df4b8b1a1ae1559ce8a559a52f4a3a8, 0x26ac54c7665dc01ada409da54cc5290f60eccd642299ea7cf3b3303a397a2e41);
    (0xf83ed69750df791cc7146162f8c99117d185a37873382d9dd2265eb4187d5cf4, 0x94261278d4136e358ad969239809940f6b35332881366ac92fbc20c367067c50, 0xfd43cee69f1de48d1b207d4bd7cc792eff9b1fbe8ca459ddb212d62c2703debc, 0x8780c1034f6e2dbe435cfd7153ac6804a8d56cf2bc5f42439edd181d99870260, 0xf0b9cf31d1dd7b8c8b51561e10af2f3fdb1a5d8f03881473d54a111e08725f98, -0x89338001709714d27a7644ddc488ff6cd36c1ce1ef14b361ab1380e704c74b42);
    (0xe0c0477a0440e2a8ea9b3e59f2fd821b6d1551c0f2bd19881661c3735282eb79, 0x8cdf7134459c11507b1682799c0a6efef205e2bf862444ae62e5e780c23a7299, 0xafd538b76c92bb70a9f889427532f6f82a2da5185679e352d6cbdb4052f359e8, 0xbb7efc2762f2b19201a91b75cf5dcaf381fd760a04c5866b07b399b9eb36fac8, 0xc5510d80d26cd67fa39368a40d2e47b8393e65bb85c7c2d3c2a4d230feb3f588, 0x663441cfe951b9ba3fcf789f0f17db8af328b20218be7f856b033c4f2911415);
    (0x8d5e3d1942eea089c9745e8d7bd6d929cff5ab05723dece0ddc5d00c1d301950, 0xa8011a4f2370fdacfdaac25dfba907fa44f0ee042b4ed56c3bb7dbcc9f0dd96b, 0x265af6e8eda569af98626dce8208eb3a0c9e7037b216eecc565ba29b60df18db, -0x265d1f88c0dde0da3c86d6dbcfb857ce82abbdf80a0fcf7e867157d89582f41d, 0x4e10f1fec0dd107989b70fbe08da9cc19370b923bd51f873d8acb8ef183d940d, -0xefb86f996b89cc0ec39e7bbc7abb0b6df7402e3a656012e62766124dd4d380d);
    (0x8ee29dc3a69f44011909941596493e8ba2656be20e9e57136e4199d8b8032ab8, 0x632e278bd1a020ed54b94663db7bb31da0b6fb6783c22af0e5e3a883946104f5, 0x3f754e1d3fb0783654ac7256bff3b8bd34735c48a04ff50dd9445655440c2a8b, -0x11ff385ceb3419942dbbf084a031a3441e0971eabbc7a8a5e9e4a8811095ac695, 0x4fc02f9ffb84708be634b6da44f6c92e5de8f80de492dcb2789d3b9e6926449b, 0x2669ef4ca02c63815cca09d9869712c8d92966d57bcd1db5f0b3707a0595bcb6);
    (0xa72e60eb24fed303a5fecaa2a1162a22941c483d2757b8cd5296bd47fb73e1ae, 0x85083e5053f033dfe6d638a34d02f510531a4c50edec3d1b7713bd0477029cfe, 0xf5c1aa6d01b3bb8887dcdf77610d45074f92519aa4f73ef92cd039fe75cc35aa, -0x2064269a579172a8b34589794aefd31272befcd9fda880e1ba13fdd4c5fa7a39, 0x6d2d8ad9c376f69ea754e2234a3ae09bc99e92f6e66c35a464ce040610372764, -0x161b66db28f29b7ec1158a5f2be474aaa463d998e00168f412fc8597e00e521d)]);
  (100%positive, (0x87d63e9df3d6f62c8e68f7c49015120d59be38df35a081d5a8525e4745140541, 0xb92b70538560500542743c82d87181dee10bda28dd8af28c3bc39041d1f93247), [
    (0xfa3cf9d58403ed996d23c24a134666722df824348da34d90d4b8cde1ad396ed, 0x3635954789a02e39fb7e54440b6f528d53efd65635ddad7f3c4085f97fdbdc48, 0x45ab99bf03cba8e15c8b1cbb79f3f163937937766c1b1a5218f40e1ea0d164b7, -0x5fd7e30c9e7f03695591311165bb0a5fb2b921ea78b041049a9c217d2cc10318, 0xf49b267b15be9acb9fe6e4f0947ed114d85eb46e24aa3ce922b9776103e81f, 0x3016b98f76092033e16fc69887b853eea9b98fd795fbfcaaa5b7467335ea973);
    (0xd03831e7dc86e9047ba15746803e660c4f6b23410376b7569f79cf22d6f31822, 0x6a967ee33d83fcec7fb140d982561934484cbeac324990a21db9c323ec04fac, 0x4622d14904355909ec0da0d297e68f0edadb84370a71e4e1e5598e51d5646e12, 0x280392a9d08fd6b44b68a15f57ea8aa5a4039c7e020e9c3f724eafe370b4d535, 0xa95b5d6ea5864a189980a96c1919e37c4df4b8b1a1ae1559ce8a559a52f4a3a8, 0x26ac54c7665dc01ada409da54cc5290f60eccd642299ea7cf3b3303a397a2e41);
    (0xf83ed69750df791cc7146162f8c99117d185a37873382d9dd2265eb4187d5cf4, 0x94261278d4136e358ad969239809940f6b35332881366ac92fbc20c367067c50, 0xfd43cee69f1de48d1b207d4bd7cc792eff9b1fbe8ca459ddb212d62c2703debc, 0x8780c1034f6e2dbe435cfd7153ac6804a8d56cf2bc5f42439edd181d99870260, 0xf0b9cf31d1dd7b8c8b51561e10af2f3fdb1a5d8f03881473d54a111e08725f98, -0x89338001709714d27a7644ddc488ff6cd36c1ce1ef14b361ab1380e704c74b42);
    (0xe0c0477a0440e2a8ea9b3e59f2fd821b6d1551c0f2bd19881661c3735282eb79, 0x8cdf7134459c11507b1682799c0a6efef205e2bf862444ae62e5e780c23a7299, 0xafd538b76c92bb70a9f889427532f6f82a2da5185679e352d6cbdb4052f359e8, 0xbb7efc2762f2b19201a91b75cf5dcaf381fd760a04c5866b07b399b9eb36fac8, 0xc5510d80d26cd67fa39368a40d2e47b8393e65bb85c7c2d3c2a4d230feb3f588, 0x663441cfe951b9ba3fcf789f0f17db8af328b20218be7f856b033c4f2911415);
    (0x8d5e3d1942eea089c9745e8d7bd6d929cff5ab05723dece0ddc5d00c1d301950, 0xa8011a4f2370fdacfdaac25dfba907fa44f0ee042b4ed56c3bb7dbcc9f0dd96b, 0x265af6e8eda569af98626dce8208eb3a0c9e7037b216eecc565ba29b60df18db, -0x265d1f88c0dde0da3c86d6dbcfb857ce82abbdf80a0fcf7e867157d89582f41d, 0x4e10f1fec0dd107989b70fbe08da9cc19370b923bd51f873d8acb8ef183d940d, -0xefb86f996b89cc0ec39e7bbc7abb0b6df7402e3a656012e62766124dd4d380d);
    (0x3deeaa7adbb90acc51689dc8993bbda1853e4f2ecbbd1229f55dbade765d22bd, 0x36ab5816ee6df17f5991a7efb05531281093ce925c6e93a53a564e5df48a2487, 0x11660934a2bbf15e04740a990b275763ff57c621f92143de780fa6625f359a97, -0xfa0c319a59808b1679a3fcb50cbb3cb0a5e915243ed499001a05f4347e32058, 0xefb9bbffaae21fd5dfefecdb25372c03daae5921d4e8c7226344f31ff5ef651, 0x1b6b187b4c012da0ba01fbfc05d3cd8e6cf44c42d6ec333f03aa1d1afa1eeabe);
    (0x30381d12eb2950f5021d4fba4d6bc33d81b0769c1e49edc31ed9cef989607bd4, 0xac506f9e73493f0764ab3da2ba35bfc3a22964dd85bbe4797380abbeb2ec914, 0x7a9d0c5374ef50ba787e94bf9c9855c2f663ff00f1ec08b6f120c1a35de0b8e3, -0x1c784f7df826349a5fd65a98fc0123bbaa43547fda9f97471e087850db742875, 0x9151733d3c3ab1c9227b0f488b03dacbab27643b9b06c37a32ca958e257dff2, 0x844ce938569d62de3ea2095dfdf9b4e239c4fe8ada959d905de6bfcb41488de);
    (0xfe10ae4884bca624507636e3d08b58590c6a8df1f5bf9cb779874d6f73bc9ea0, 0x87d63e9df3d6f62c8e68f7c49015120d59be38df35a081d5a8525e4745140541, 0xb92b70538560500542743c82d87181dee10bda28dd8af28c3bc39041d1f93247, 0xf203aa7c521cb6bc471a203d38f464673469ef99130fe5405a2ebdcc947409f0, 0xfc251aee271d9a4034fe8bdac78e581a11a2b927b448678573e6864dedeb1419, -0x7c1f3b6d604c18d80aec59e0338930ad18d7edcb934968a7c00ffd5e041fe2d6)])].

Definition row_ok (gx gy : Z) (r : positive * (Z * Z) * list step) : bool :=
  let '(m, (x, y), c) := r in
  match cmul m c gx gy with Some (x', y', _) => (x =? x') && (y =? y') | None => false end.
Lemma row_mul gx gy m x y c : on_curve secp (fpt gx gy) = true -> 0 <= gx < p -> row_ok gx gy (m, (x, y), c) = true ->
  emul (Zpos m) (fpt gx gy) = Some (fp x, fp y).
Proof.
  intros O R F. unfold row_ok in F. destruct (cmul m c gx gy) as [[[x' y'] c']|] eqn:E; [|discriminate].
  apply andb_prop in F. destruct F as [F1 F2]. apply Z.eqb_eq in F1, F2. subst x' y'.
  apply (cmul_ok gx gy O m R) in E. exact E.
Qed.

Lemma tk_chain : row_ok gx gy (tk, (tx, ty), tk_cert) = true.
Proof. vm_compute. reflexivity. Qed.
Lemma small_ok : forallb (row_ok tx ty) small_table = true.
Proof. vm_compute. reflexivity. Qed.

Lemma tk_mul : emul (Zpos tk) base = Some (fp tx, fp ty).
Proof. apply (row_mul gx gy tk tx ty tk_cert base_on); [split; [discriminate|reflexivity]|exact tk_chain]. Qed.
Lemma t_on : on_curve secp (Some (fp tx, fp ty)) = true.
Proof. rewrite <- tk_mul. apply (on_emul secp). exact base_on. Qed.
Lemma small_mul m x y c : In (m, (x, y), c) small_table -> emul (Zpos m) (Some (fp tx, fp ty)) = Some (fp x, fp y).
Proof.
  intro H. pose proof small_ok as F. rewrite forallb_forall in F. specialize (F _ H).
  apply (row_mul tx ty m x y c t_on); [split; [discriminate|reflexivity]|exact F].
Qed.
