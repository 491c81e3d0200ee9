(** The base point of secp256k1 has order n: a chain of doublings and additions
    whose slopes are listed and checked. *)
From Coq Require Import ZArith List Bool Lia Field Ring.
From Verif Require Import Base Primes Field Zq CurveSpec CurveAlg CurveProofs Secp.
Import ListNotations.
Local Open Scope Z_scope.

(** one step: slope, resulting point, and the multiples of p by which its three equations hold *)
Definition step : Type := (Z * Z * Z * Z * Z * Z).

Definition order_cert : list step := [
  (0xcb35b28428101a303eb9d1235992ac63f58857c2f631ee6936d3aebbeddcd1b1, 0xc6047f9441ed7d6d3045406e95c07cd85c778e4b8cef3ca7abac09b95c709ee5, 0x1ae168fea63dc339a3c58419466ceaeef7f632653266d0e1236431a950cfe52a, -0x3b04fbed296cc1277f1659ab9a6f3feba665d74e98725ee2d39e827bc28878b0, 0xa14e3460febe2c2316bfcccc1b764790c3b7d9ff92663ea740240f16b583e774, -0x3c8b95972f12b04b3ca25330b2bd449e8e938229d1fd14f76cae42249ce0dc11);
  (0x342119815c0f816f31f431a9fe98a6c76d11425ecaeaecf2d0ef6def197c56b0, 0xf9308a019258c31049344f85f89d5229b531c845836f99b08601f113bce036f9, 0x388f7b0f632de8140fe337e62a37f3566500a99934c2231b6cb9fd7584b8e672, -0xf8819baf19538f6abb328694df01e7f3a13331aae64135353dbfa72a8c09fe2, 0xa9d76a4234a8ded7af964ec3f6f871ce09d7f68349a3bc2d7d569cb7f027896, -0xa6b8fe4b50a031c6b95e6a27eb270e940a444b7e1a6a43c3d59ce63ab90a164);
  (0xa69c17c116bc196cf7eeea54e921c6c8a847cd1fce7830438b85c5d11d8edaa9, 0xfff97bd5755eeea420453a14355235d382f6472f8568a18b2f057a1460297556, 0xae12777aacfbb620f3be96017f45c560de80f0f6518fe4a03c870c36b075f297, -0x28e0f540c43273a88c53c8feb4fb8a4365c9ea85df48b39f24d63b12acaff5221, 0x6c6ecdfb5f03e9f1648ccc828f5c32dfa5b16a6e08dcebc479b4dd6fe2fb7507, -0x46a6fe3ee26f32e7130565f18f7f196c3add4756fa352b5291715b34db0cef2);
  (0xad2b3931a9891201744bcc89bbb32e3afd8deed03753e4e36ff188142c1ae831, 0x5cbdf0646e5db4eaa398f365f2ea7a0e3d419b7e0330e39ce92bddedcac4f9bc, 0x6aebca40ba255960a3178d6d861a54dba813d0b813fde7b5a5082628087264da, -0x5acc975538f1f283125c176f570c77e7265f9cc04e3678ff4ce01c6d93fd09b1, 0x7523729962995d83646f516b566d9e88731e320a3f71b75bd5c609296c9747f9, 0x6e6accb3ba4391cf02cc12b5a671585b2f7f8b5a985e68d44c15482743171047);
  (0x659311991ca04078c1465534151e770c98550f899013bf61da72261783756574, 0x499fdf9e895e719cfd64e67f07d38e3226aa7b63678949e6e49b241a60e823e4, 0xcac2f6c4b54e855190f044e4a7b3d464464279c27a3f95bcc65f40d403a13f5b, -0xff24e0a803b49db92b7aef64d3dfa01f809340807b7d6b3432453275cc72560, 0x284d606007a30449d680026e6152a222c71224899b3dedbd9c80c40ec77e9d0c, 0x795d8322333a00cc1a3a690ab828749dc9a48cc4b9a18000ee8d4b7c85e4f45);
  (0x25c5c9307759a75241f547426a6095a0bb85d8b106acfcd2732e68d811be1c9e, 0xd7924d4f7d43ea965a465ae3095ff41131e5946f3c85f79e44adbcf8e27e080e, 0x581e2872a86c72a683842ec228cc6defea40af2bd896d3a5c504dc9ff6a26b58, 0x71996cd4f075f0e0ddeb6535892986e184d9140a730f23c4ce9502914721235, 0x592c4f74534bef10daccd7902b8f921eef0582c0104796cb6b48c70961bf126, -0x14f1b4f7342dc1cb2f001e2b364f4f912bd48a3b7e17cb681628fd7939852291);
  (0xe6a376128ed85c27cc8d1715fe74624dfcd01ee0115740f5c5e017d0161af012, 0x6d2b085e9e382ed10b69fc311a03f8641ccfff21574de0927513a49d9a688a00, 0xacb82eb93309ad1cc739ddfa33604a83776238aa0bd5ff248dbac47a17f388fb, -0x181ce7c0942c07be731aa3c97772f7ec161aa378d31170c14fe790e10147dbdd4, 0xcfca2088eac3ca24b95264698b9d036d1f0024226e4206bfbe2659d9b5c03958, 0x5fdcb8c49e2ba49859570deeafcf5754f674a1465c5ec7221b8d16923a205aa7);
  (0x93f65110c76f11b07c58e9c0e2a52efa148307670282ac14182494421e374bbd, 0x6a245bf6dc698504c89a20cfded60853152b695336c28063b61c65cbd269e6b4, 0xe022cf42c2bd4a708b3f5126f16a24ad8b33ba48d0423b6efd5e6348100d8a82, 0x744b8a47b81aef57d21ff2a2c5151caa64c030f52012acbef5cf75163ffbc75, 0x5584ce192af47714806ed9c54b9d8ba5f3e2a97d83a6d3e8f7b29e69efa56253, 0x1bfbe5e8f510304e5702efbd4d1dfe0c60a3ce8a094252f1fb35208328c6791);
  (0x5e7003bc5c5e610d341ec2329dc7b1ed2c303306520bbc0fa534e7a7bd8f5dde, 0x108443b948d1553584a271333f7fbd043c4d66a91706edecbf07f6894c04f299, 0x4e7b5daba34fbcf9f055520d4db8c49fd60282d32adfca555b04403db9581a9f, 0x2157513dc02b3fa5b98d1d7e384c61119c54eff998c6ca32adb3f5dc8ca460b8, 0x22d673c198b4169ca00d04b145d683c8eaecf0dc76194174944a198655753bed, 0x2110004009538d8f822bf5a3bf6dd4a82f25900a04195ebec95fff141ce54c07);
  (0xc9bc4235998f210bafc9977fe99b5039047652d9821ca9d0c8a80c4ce980245e, 0xe3e6bd1071a1e96aff57859c82d570f0330800661d1c952f9fe2694691d9b9e8, 0x59c9e0bba394e76f40c0aa58379a3cb6a5a2283993e90c4167002af4920e37f5, 0x52ec0735c64eb63c009a001b0613cc603ba7c639f01e49a8f813ff2e1f6e81c7, 0x9ef92a697afbfa83a19edafe03bd0daadfa6d64c2075e84020c51c7690c25685, -0xa693c44230855eec451d712bacda3d8536ce4fe3c0f587b3c8841c74d9e5c84a);
  (0x32f5769efc31029e0584dbf3e6a5e370540b625e0b45daa714b9cf24586db45e, 0x6df7b5a7a126a6112e1e0ba01ad1a0f89f055dd3c1c7e5336938ad32c494b319, 0x9e2599b420982535b290cf45325af0b4a81efa6b414a583eeb09520a981fdf32, -0x23ce9fe6337c457cadf6df8dc8a924d8b109f77ad33cea352be80e2c76f0d0d6c, 0xa24cdb25dc8ce0e2ff7e4e6ad1727941d4845d5db719c8942787e3034319055, 0x1779c3d9fb265b28bf5aefa350ed985a32ef4e4c3ad8ae90ba53b1fb2542cb15);
  (0x1a3155af6abf5bdee9a3650a76f935852cec622fa454097ea6c50bcd3c73657, 0x841d6063a586fa475a724604da03bc5b92a2e0d2e0a36acfe4c73a5514742881, 0x73867f59c0659e81904f9a1c7543698e62562d6744c169ce7a36de01a8d6154, 0x13472eec2adef66fbaaed265ed04f36db671f4644411a4949554336e3716cd, 0x2ae0ee98b83b100a3ef4a1b8dbd6f4756f43f7a31f88c647edf5dfc97c4d1, -0x24417f6751ae9b781570e4393bb847f71aecf1505b0f3c9e29e4546e0fa982);
  (0xa970ed203cf82d78993982874828630b31f923d00678c56205bae895c74eeb79, 0x5654834268843e72c300e97d5188fca2ed04459e09ca4351475a62c4bc8ade53, 0x1b33a3362bc0738019cf1c838c69253cc6ddcc39676e2ea169394d2089481e75, -0xc2fc1453b7c4a7b3d477aa22a23700883c09d049275e6721cfc7fbd459d9a255, 0x70264ae4e859ba23d495f06c474306d2ccb49e6bde01b8fa637b1df5da624ae4, 0x1e4dcc44688c5f609024f5a8fef3e701cfbf648fd8133301265ca58753369f1b);
  (0x2ad68424fbd3df569a0373ffd2d460262e251a2a6432f19b8d5beb1c8883b65b, 0x1b38903a43f7f114ed4500b4eac7083fdefece1cf29c63528d563446f972c180, 0x4036edc931a60ae889353f77fd53de4a2708b26b6f5da72ad3394119daf408f9, 0x5ed0c139b5f54f21671db87b7b9fb3f801f80e4a156b12f1fabfb5886dc9bfc, 0x72b171d54acb48c18f3e6527f1740c2500f845d9f018bf048540cf34cc48072, 0x9e41dbf723144db3053cb0d0d0973a2dd1086adc777097cf28a3f44f933abdd);
  (0xfdc05316bccdef41929bb444f454112992782117d25da4d2c0db71c8b74b8788, 0x6e8f70652c33ef0b8c69d32b0c8528d9325e6d15b0827d6fa4e269ab79ad5a63, 0x29c04770e713f5948732b9fd07acb6f2a2eee650ae28544fdde57f00e50f833, 0x769e1d504105137ce7bfb407010102531446abdf8ab1d7cef0f7a8f107318e70, 0xfb85b4b7ae42004105ec6d4639f958fcea5c191dd335ede27b9c15e587485ab3, -0x529b77bf194d7b0b15b6c4c964b282bea201ebd4080f3bd346839d030e69b87c);
  (0x4b37c8b6ea2a57fae321e09e111fd106a0799995d565f545ff2511e711de79bc, 0x8ec4fdc39891f6af1374e06f0c44b81501b8254175fc4909acba5941201af62b, 0x2dc6cae5cac2d88783dca0e503c798f8fe067bcf5fc2975113756cf7ef4e5f1b, 0x34931f51cad88bb090090291c0d1ed249f32999321106059e19f6306deae649, 0x1619bbc3092bbe52c2c1fda2a8df4da7dc3eca29bc417b27fd799297c954d836, -0x976b52ce303614e51fa0efc9e9cb0f4d3f20e43ba10d7745e9b684d28c60b32);
  (0x5ec9ea081be56f477e52d9ae87c1e0b2de6c3d9e3028a9faf5471bda5259dc98, 0xbd617ee5b1191fb3f8e5220d81dd1a513530f2d521c51be83acb903eddc804d2, 0x79b1cf66ee7d7f70353c9ba3275d80d35835ac4c5526806a22ddf79f64633a62, -0xccf73071f5dcfc46eab78d38ef5d355f14afbb3ea7e325577c3721a454717255, 0x2318e71f4b2b1f426fd91076b5d0c8348b0f54e7d90c33e2f226aa5ad24eaa68, -0x11423ae870c85e8c4d4b07c0af7aa3c88c89a0dda6bdd989cd15f458e534e76b);
  (0x75488fe6d6f5555711738503b8f0d5e0f8fb600126bb71e7f00b6042959baba7, 0xc7a363246aeb7c8c991b2aa710abdf5cfff2991230b3a69fbe2dd4817c7c3e0a, 0x1298fdd70e448d2d799863026b4b2d4902b32148d6d1e5f815f5b0c005c9e21f, -0x1efcb60ae696975f5b84121895a2bcafd3fe56de946d6e80ad3f174c4b941294, 0x35bb681a4338de4ea1991c4ca998cef7b82f893fae9d87cd1031b1a4687a9b13, -0x4b3059ceae06b07d0404348bda5dbfe0eeefb1f4d5972a8c6717d318751c947);
  (0x4004a33bac0d8f62d3f6c31239916e63f09ec97157baa54f5debb8cbe42b9e41, 0x60720c8ae444f84a46c48a5d3f93deac72ecf016e687ff4ccdf6550c672874d6, 0x20b8a17687e7fa481ce712d8a4e512aac181fb35efb33e52d39a287d13f0bbc5, -0x1c9c119d31a5f36aba6bf51bbeec08f7c841a986e8e47e43d35b6563188fb83f2, 0x100251b357f9331feb8c2c1dd2ae4f981a9cbef5a9d85f11f44aaf76d7ec3519, 0x19ce343833ed0f45a62d69dc9ce98c470c2fee1f6c5ca0e11f9eddbf950ed0b0);
  (0x68639c1646ed2c0ec46965ba91e858fca8a3fb0eaa467ad500dcbe854902cd63, 0x7aa4afbe29b06a1eda9319d572572b131df68f741b5f8d8ed00ccc0480f8016e, 0x15f79a9fb77b85877f02e3c13202b972423fd00d937c0d2dc9d94b1753fe7130, 0xa50dc7eac8cc9d554fad5902159703b6913674f72082427d8711a7095e47b5d, 0x2a9115943206b79d651dade92948e30d0d40ee5dfcc8b6d67a442fd83cf81423, -0xaaec3db1416e184243855f6ec3a9f9c5ff57c0c80991f1bf59f249c3f23e7d3);
  (0x307b140cd5924759a8a7433af4177f3f84b728d90350acc9a46c58a2416283eb, 0x43745cf4237fe538de5a22f63dd71da51ea0ca94e772626b340d93821c0010af, 0xc1a07dcf71d0a1e98f500ee8e102fcbe55cfb45fbb347f5419085383d316b501, -0xa7f22afd4dc613e8ec2661af97556a89ea2635ff43ec434dc8e829f384ac8014, 0x92e62b115fe1755c2703b03512c7192eb04fe79727e44dd5c1865c768af0b32, 0xa73981033007a0217ef8bb06fe11b58eafa38bb0e87c5e11cc2a6ce8905cf1c);
  (0xea99047f80666c87c4356f01bba505b8c29383d0f1efb93c599bff86c144c93e, 0x9c2198986d202467c055c7347355750506105b3e2874dbf28f7f0c3966e1af88, 0x8637496c8eddff12f9dd414636565e0fefddf5cd52d484550ec9fb2d8dd0914a, 0x31c01fecce069e04c09e2353469e8f5ba1fdf4c3f5475685d12e9dc4e4860cf9, 0xd6fc17af7736f459c664b926a200ca6fbde4a93579642248571306e411f8d9db, -0x5143599bafd5ba9da9d1836df43af7d5d8ec77cd698ba3673d393d63259cfa77);
  (0xd6b5cf9acfc8f6136cd1865243cba6195cf1d713bb80bbbbc37cd562105a2306, 0x3642d44d253126fa9fa636e2a0b4a88e5119e9729eb515ee1d276a317cfa9132, 0x524a719c3ba68740cd2903e81134a26644021136f6bc5234fe213240c16ec603, -0x3c87d0885642cdd316f7ec92343ffc3a6d13fd05b984ad73aa002a64deb1fd38, 0xb41478360ca9873a15c841e811d9317f1c9160860d8f85090444aa325bf1c7be, 0x5570913472c5b0f3f19b4551a311a86a89d7c47c9eb8369156e8b9ac35c3d9f9);
  (0x8a7c2ea05451cac597ae5618f915c25646fda65e89e697b06aa769c6135e376, 0x5cf51c1b02210d859d765e17321095148f03fc5751004b6a91f098e2e2711596, 0x1eeb19e0610df4592c31e58eaa2a2148017fe9eea3995838f395bdcf26d5c3b3, 0x248158f42481f024c51d1fa7b3ac8f0d922d9fe2465f047291e424fb1621fe1, 0x4aea1e820eb7e0905dd5266a32ca2c09407b1d90e537d3cb7df02280692f3c, -0x14eee01c05e3117698eb0a482078db5cc4bc33d01d329e292680fe47c2ee792);
  (0x4a6afd1c53c51ff03f1ef8b699756150670e26fae5218760cb22c3800e73eb83, 0x5a595109f75ab4ea4a0113acd1cd418e6d7534d622c61ca20dfd5137f672817, 0x8e9e53a77729af6ac2d00d7d173ab5de2d61d4c07dd1e6f8bc23543b8d85eb59, -0x534981dbfa3396d4c8999ef31e67c02dc23866f73a9b91ff7ed0325ef470b6a6, 0x15a2070af624566b671b714082f9906bc098d8ff0691538e2a364670cd4c3b1a, 0x19617a4a2c8c71e093eb89ace5948c8e1f4b47e0dc6260a43bdcf2e057da0fdf);
  (0x1eaf3b101e8dcd7ff2b4f99c319be7a1f7d6b73deb2b22be1e708d6afa6a0d54, 0x1e70619c381a6adce5d925e0c9c74f973c02ff64ff2662d734efc485d2bce895, 0xc923f771f543ffed42935c288474aaaf80a46ad43c579ce0bb5e663d668b24b3, 0xdea604b20b49d82c07751d9561a8c42bdf0ba9df5d46724961ae24a9aa52f1b, 0x3ad89c994d3712223e87281a1a38058d4e66f4c4a0f5f5538dd04142b50aa74, -0x2f8bc527c171b8aef03e829ca4f351add9569f1afbec83cac0133083127c9dc);
  (0xe8e42d16ee4dd99241b885b3a36b816e6d286c8d3e9c72150028173378d6359, 0x8a0281df5d09867ffeb0ed06e39fd53b739ec9daed30788cef9513d86c7707cf, 0x98802f8e011886313ec17def1b07c6658e0516878a4ba97b43d4280afc9b77fb, 0xc03e3541ea5c0e1ae51c432676a8ea1b5d46248d3a54429442d740ddbae48a5, 0xd3de5d19e8b6a6d9d5572b7a77fdfcfee0753e49deacb905c78705aa614d88, -0x61dc4e53e7a2b9a2130313a749180ee91eaf4ae92b277c36930c92a162649a8);
  (0xdfba4f8fe0dcfe15c4bd430eeff98965b9130f6a63c73df6c1921c22bb1cd254, 0x5540d643f215291adb3859d432cfa15b0a7c3d1040acace7e7a62775dc58c0e5, 0x18f8b0dbd91ed136b17d5ef54e2033aed5241c525a0a1e7793ba65e2ec003855, -0xe372a630333bf4cc98754cb80793c67b3021f177ba2ec369be3b32afb61b087, 0xc3861e345f8de170859c6503dc8225add0c69103f2a01aed9f95c8590c4ec3fc, 0x2e1b19987b9165ad388c7b0c90e10a8e653137f9ca1ac83368a40bd8bbe60908);
  (0xd94434077a3c1d4e96c5b3a2e081a85401a2628ae27a984e217363615d60a0fd, 0xbbf22fbd5853b6ff02c5f12f2b65e547f22abb11919fdf0231bd229575e7a91b, 0x557174490b32f97047e7a4f448507f94d1ef81ea649b9cc6f06446cc91a40d2b, -0x2ac97205b404f1c8bd8326d22b1bff2877ff89086b4123d37545982c61529ac7, 0xb864b2605bc5e37f22ea252ac6d31489412cf51bda8dc2efa6a078789782a61c, -0x5727b0d2b1f8ebf1077ec2feb621e08ece0b8f8f30fc95ab25fd67828a47fd82);
  (0xbbcfa52543c629540020d2ce5eaee81b54727ab0be0f8642e4d5b16bf5b41d46, 0xdc27130a5e29d465f8ed0ec8c9032add3165def4a19421a6aa709b47acf7efd0, 0xfca03dd32057fc6ea0e41c0934b26aaeabff1997e407be325b855796dd8b1300, -0x309186954c276119f0bac376a3c5f28af174d14085ffcf1f12b58cf7adef5ad1, 0x89c903b0edd029a1a887b686adf90060d52e9d277d87dd0fb180f75e0196ae2f, -0x17a0c193d5376418d4d4d26c96a79e22b80ef7d52a06a0e527f82c631aeacca7);
  (0xaab4e6c2e159f2cd6bb3f953d07b0d3cbe283c4540962262287452731b1fcc02, 0x508de24cc26d8e981f01916d499506c724a44b03f3e10dedf65c50ecea317383, 0x1318692da5f769b0d263b0a8abfeb7c0e3160967507227bb6b9d0adf23dfe856, -0xe70fb12dfaaec43585163748f0585aa0664b1b2ec0e0d2e5bea157e8a5f06100, 0x71d4c250255b1e3e36e6d5805ff95c22fff1088c6f5b8eac2664a301833923ef, 0x5d165fea158080d65f1d80e988518c517f69cc83faac260a55e9e13e50bdd5fc);
  (0x8182b17fc6dc6d8f3d9fcddd70c5ddfb0d0472210ebe7de98a6a10baac8d1897, 0xc021ac993e1e035fa0c3771ba82aea2cd5ea322a1b83c1f6f498c288a497dd89, 0x7a74eec7267add18c1efc0053ef0d3333f201291d2864f6b119b564dae1d3f7c, 0x14d679cf89e676fa98713aa7c32b1f488406a1edc9ca7487fc15734b68a236cf, 0x4184f99b87420f0d5a4422627030d21053171d5f8cbdb70718765cbfebbb1a23, -0x38726f5a250759238febadf68e03600cda86b09f1e33d1f19a3b893819bb7164);
  (0xe11f6835001369eb75086850c070bec01046ba9c0e53c569b858592d253bcf01, 0x6cba95daf38dd2b0b3499ea9fc9057abf82851d831baf93974a03789df998b8f, 0x80c80c11d0ffea76fb9d0dcdffbf449cc3fccf0b9b3718e827000bdc0aaee86, -0xd937fe3dd6c9652e6658bb661194a1913db1c574c9a89795900f4e85274706f5, 0xc5f8390791633fec58d84b7564d7f6378d4a50625351c1432bd29471ac1966a0, 0x4957d66c262f191855be4e3ed93b60917599e88857d03103f1c8be2e983c7f88);
  (0x697c83c2ceda54b32f6c3b03618021c7f17f6e39ad989f5b4b997fe45d552885, 0xfcda2fabd363ace8ec666d14906031294e67ad81197aa72f91e48ef052e9b5bf, 0x85f41abf428271ef2cf3296d27db9bc551b8ccf8fa35198b5877d32ef0227457, 0x55ce51f3135a2c13dc8527f6b54ec1606f749992bd424a8b14a862b6d81cf75, 0x2b7760a5b63870eea73895e353357e97fa1c3ecb5f062bace21b40103992ab3d, -0x3b630f930517ed4920a32271e49966630910f8aafff1e2ae8068174439c22ac3);
  (0xcad98b2b7f0a886d5c6c49b457e52e12f411702c82c4781c5ece28fe320acdd2, 0x8266dd91d610c409921f841681fcaf288e285cd98d870536e998ed2919e7cc93, 0x76b2af36dd9810af3224f17b39eed372e35c9c6274f0791575a838b00317ea04, -0x218f1f3bebddde390f4096d2b709b4d96883b20b3a3aef49fc9de26bc0f7e6ee9, 0xa0bc087ddfe242813bfd9ecba5d053c80183ff5bfdd0bd5de58ed5b8c9c21f3d, 0x61070d1a85a24d6ee08ae54e8f30ed1ad0fabdabddfa638f5aa8eeb1502b07d3);
  (0xbe96787c330b96736883265ffa6917bd94e0d2be9b7bcddcd5ca67c498a239da, 0x25108e238c7d7c5d6e6ce302f4468616688d220814897a16d4cf21b09078de4c, 0x9eebb63da852dd4ee931bac47a279fd6414b00247efd21a1d3597758876c220, -0x6721f28efa01d19a350cd273bfd369148e410b6ed84d758d8256099b080552e, 0x8de3b349c605b103f8d4b6e7e52f4932a2b6160ee2d300545b553571da2a8b63, 0x457ceb7422e102c9771b9603e4c5881502d53f976dd160c1b232cc1f9727db4e);
  (0x7bfa5d9b2231d1801424c515ce5da4a58a80657edd45be0188d1a3346b79faf4, 0x5bfab6d6df5e6db47f633948988f7506a21d16bf63e94bcb59c08b32833cd127, 0xa8ef69ab9022a008b83a78bda88b7b2a3dce45956a72d4978a25c702abbad7cf, -0x67a88dd9d045a04eeb01fd268d0bcbc0b41e552aa7bec3d8fd025e711a72850, 0x3c0a8ace0814bd78e09eb246e27166da02c1dfd0d8619485b3c16465cfa6c8ff, -0x1a98364e3fd69679aa0158b5ea57ccf9523ede1eed94cece04623e2847768845);
  (0x9cf4bc381a4f40e93b537c96215331c947b566574d328a7c83b9da1d007d4d04, 0xe5f2018d37069e0eab27c2f881a447e668dfa363377edb831b8743db5d65be1c, 0x338e5d9c9cb6e864d0f73fc0165fd3e1723c81a30bfb0ea08f5465fe8f111e, 0x123fb370173b2ee635243cf10d1a3d3c45ccb2e461103fec6533b723ad45b615, 0x603b2f5bb565311fe99dfde18ac4f2e12a0c17f662a5dcea99faeee83d3a0bdb, -0x549696aa2a5a1de9d0cffb522e9c2941c7e64d2eb245219f668d966b4f5f290f);
  (0x8f7af2ee5d876514f60b94223fa655b2dfcf11f32ec2b63f985b437ba029394e, 0x135ad831018b303767636043ccfa77a70196aee2322b0a05dffc7aab4f8a7d80, 0x681c91c4fa55564902381237cddd8f18c912daae53252d012fb7854599066e85, -0x26b66c8169af51f00043f1ff358c40d379fa9a8dd79031797349a830bf04e3d98, 0x506a9672be35eebfc7e2adbbd42223fff75e97a3dad908ec3d01d42f05ccc7b4, 0x760793fb3263585a2e9c0a4f93bcdeb98104978b2fb9041577e36d57572d702b);
  (0xa69e5d458e4c86df47ae982e052155e7447d40e517fed7a1d397be3f23dfca7d, 0xf0c6e83245bae397eb9498c3a4ab388e7331ade82e6761e4d5d4ba4e395c01dd, 0x359eefffdc59e2dcc9b155e9e50709cadc9b230e4e9883a7bb5601d714b94c76, 0x42a3e5065f95a56a5b0ed4af1a1851790249d2ca2ea3b44508083be722da468b, 0x6c71c2ed786281a9aaead3d1154bcb5d1940f55349bf1573bf780c2e8b690e2c, -0x901d0bbf1e03eb7b24043404a11bdfa3582b90f4c938eb671cefd6187f4bdadc);
  (0x9e8e880da673c5c35126886f5442a54fcc74f069ab5f4b17acd98f6ae0f9e7b0, 0x42aae5a0e349e94d497d4529a1c945d06619daeb9adfa88750c95e1c8e8e46fa, 0x8b297558995d98bce4ee6f60567d1676d87aa83e42c863d570db999bad5b346c, -0x264f4c42e1ea20f84e675c1a3ea349e8f938ccf2bd0b9a983291d8fd8965f4fd5, 0x62343f4c10ea1221d2f58c0c89e2f44c4105798457f81aa63cae2b4dd9dec774, 0x6bd639a751649992bbca0cbec8a55d91208aadacc2e8419825822d72999fa132);
  (0xefbca2601db795f0b70e42e3608accd681143d91c27547f996cc4040e6ed2e8a, 0xf6d5940515d0b09c4d49e8cbe8de8ddf9a3cf28575aef627a387ee5263988b34, 0x2439d22dd63fda6e0781dd9e17f699e5708ce35384d796e2d943d1a753b43907, 0x3393ca90ff6d3897054d9649e3f99a088adfe2f6d6f24088188e6c46ef67bd20, 0xe081c22e5ba6394e5641b5ae6303f006efdd72eb85432d2fa775bfbf73c7b3c2, -0xa8b89a6e4407c663a2ef536c05722121bff2868ca4bde1f368687ec5595c59f9);
  (0xb3ca12947672652375ced933e50c977a4834b239bd2dd34104bbc5a03037bbf4, 0x45685b52a932ee1f2638b9ea3b075f8be2ecd902e14bb7eb1ff0c24c22bbcc5, 0x98d0f44c8eaf53abd826c20ce8034d4d867daea7e0b6990f980a6d6d4ebec0d3, -0x2971b738e540938d3ee8a5949057591efb6a1f2504a1c68d97792db2e643b9f28, 0x7e44357cf1481cb87400c4199210203e9758a764d346c64ebe560da34627710d, 0xaa4e40dcbd3471f6eaea807feb885f58aff2208736fc9add3b564abb7d489bae);
  (0xd79f4f01dca713bb20f7e4ec31b100cb8385182754c228a43b7d047a2253ef4c, 0x1760cdcc44158e6690cb190b1f3c3f349db9c5d9b572a8349f4eb90829d38ca0, 0xd2bc98f630b636e52c0d2bc53474e79e2f7953db25bcd79620c038f953f69fa9, 0x62e34d8a036690ab864004d2daee09b4b66224f14b9a4783cd3e8cb6c51ba171, 0xb59cf9d85d52e0e1697e9336ba6afe49118a02ad885d4e43348f4315003467dd, -0x10097bce7c78024898b16d5947012ccd8974c3492755fe6fe77145caec33fd80);
  (0xf714a25c129989ddb07bc33736ba00167e9b184172dfb22dda00c317a66fcb42, 0x9b89442a982351d113eb312db1700123347bbc098a0e887c0cbc9378021115e0, 0x1063e9384c94adcf5704fb94a9025b2e1fc194e40d7ea1c958ad2a1e33579b1, 0x190624b30279ce793bbe109b877fa9d746114742f169b586e4abdeb06257ae81c, 0xee78d2f7713fd8af07640437ca4f0c6feb9bb9f14d2ac07db9b68bf57dbba35c, -0x7f8db12f65842f636d1d6b06ee1febc40c3842de39d0d5055d12477aba9f6946);
  (0xd2dc16026406ae35a0663c4ee71527665968052eb607e8e61d9c839c2c1f4c8, 0xa4243001579d4316161e54e46080e5d8c7b2be1396f30e930d7054971eb2b9e5, 0xf3c4854ff5a4738f2016bacfc57f2d51cc34ca710c7146080ae06c8f8dfa5ee1, -0x1bd577150728871babd15625366e4c63d9c86888ef2ba0b16a1ff870daa0c69, 0xadadd151c21b4a8244749357b512b72222be1309ce58854c1207a93b3e218d, -0x7167b563a759e747062d3d53e435d1012be9858f20b426714e9767509ee6a6);
  (0x165af19d1a8f8251a10f075372f3abea524b343b77743970005b7145e6846846, 0xbce9996125b8568b53511f02ad8dc2a60710a7113936047cc2e217df6f8ebd1f, 0x16d30bb2bebe008b25475da7cfb489576601cdfd5d67d9ae51e8edcd05c5b821, -0x111282ea315d5a442d19f91e9777b2fc8b6e14a3ad5722b68552fd954ce7fcbb1, 0x1f3c1d5c71083b97338d41cc4e8cd8ca6520d022ecd9e35d0d84247bba99bb5, -0x229c3d6533b898f8b67a95ca51816276c003aeac5621120a054ef483259d782);
  (0x27096af8c8838142d8d79e997ec73b463efa3daa5871cee9ad4b57a474bcb05e, 0xe785ae5d44cac354b410c1b2b90ff2ff848333f059a53daec1fd693592a47c7d, 0x491b8040ed7a05bebcd057cb50f8427abced2a6bdd5028fa16f280faeaf60cee, -0xa3e0d5668293159e007539715705485aee52d1aed3c826be316b6c99ed80727, 0x5f3def07f49227377a87c189b0548ee2d19c750df9d3bae1d27b67f30511fb0, -0x67f587d2edd731bb7e8b2ee227340baf80bc6b7eab0aebc1926dd77ee351bdd);
  (0xa1785ce327b6253c5e3f3d54cfff680aceef47a5cbc144f3baa90f875e336534, 0x9f86dc0855de2302ebdd6e42a5310ad98a044616d2d5a183489b7d1a9b95cc88, 0xf4e87aaad16e8eddaa48447d63a6c9f67eb9f711829bfc9514f09fa08843bf6f, -0x217ee3d497842532acd9dda2de1aa32e1901e920e7e66cb38f2a4df9f52f47285, 0x65d89d6cee9c63b33516542c2155c24d382e95bec2f6d8ac0bc34006370c5a52, 0x2d691bd977c8e298c2168146b7a91f5f2d182e95a27b66635bcc6ca64acc1f49);
  (0xed2630a67f09ce69ed21a45976bfa99c7488941eb280101f0910155fa548b8ef, 0x89206a1bd954ef099c5088a606a44d6be18aa96ae38dd1563087dab733008dd3, 0x50795eab16a6e77b6eaf63a6a51f66ca73b7ea24484b9b14e323cb30774206, -0x230037bfc556d204a37f46c900dd8e0ea5969e75af3d192a0531eaea3cbdd0f7, 0xdbafbbc6c1e4bb0615acd5c3d8d98464c23ebc639d8c95f0cd921ade57960432, 0x14c02eee9f4d665c07e6f2ef2689e243a233228e15104d3641d1509c4ebe575a);
  (0x78e2f3cd7964eb916b99fb98c6106d355416254b6817130351672621c022fef9, 0x4c10cea62c85171fc15f27491e74e7f984ad7fd21e90966625d9b95270c6a9d1, 0x5a1d804587f00193d435f4e05c57d60810ffe9af89a2e3f9d2f1ad9fd2b3b828, -0xdc0f208d31873330b4bbc7dac391b2f92f480b1e9533a0830174f3591a4aa621, 0x39158dc400c8ac697e0a3f6475c6045df6c936cfecb3f6c6a705b218dee29266, 0x1cd572cd39e89fba435361ab56d1c0f7e4be7358de48c0663a6adbe9cc592f7c);
  (0x517843307ee8601a66b5c07b23bfc8a5b6990dce19e27d1d0c1341d6e5db5a0a, 0x1be1b99823d9cbe52df34d87bb6d7e99f135fc38ddfc3559219d7e27616e65b8, 0xc89421c01a3db133a2ca1000fbeefbad200b9f7dd25ce463f72cc687cf09944b, 0xe896267dc8819be2dbf5384e027f80254ad540a84ab4cb3d0451625625b14aa, 0x19ed5303bf687248461abb645802665030b8654fb919a1e48bde6cfc0b3a032d, 0xf558860c28bcb1ddde732dd37f70d3dd8bbb8de80527952a2cc4e138bc2ad29);
  (0x90b7accf9b0634e7636612afbbe7b0430cfe6f106996579305ab93ca24e960e9, 0xc21deb0cf4f4b9055e6b380445fe24dfbd8a42aa366db46f8d8b541fa215574d, 0x4a4dfed071279c8bddfc4bf57f3faca004197a2d00b5544ae55885d6f9740a15, 0xd9aa4c032b5c21ef5bbf38746b4b19987b2a79031fd46aa210bf4a995418391a, 0x51cf263213de3f105ba3f0ef0af6bd2a52308d89aa4dec9a9d4247e6caa0eaec, -0x5df9211050b1934a279d958add181d4afd27380db48fb7132b0624ecb54e7093);
  (0x27f195f6f4cf4b4f4247222bc5e0a63c84f8dc0044d8434e6967cd633583ac12, 0x5091541f5851647a93df0c14152a4516169b5bd6acf793dee8c9dfa27710e4b0, 0xec29eeaf3d880023f13d2608200ec283c971081ee88ec05247bf6d65b57e8537, -0xb4ad982d40fb1a036d795b5eb07a8fa58569e90455f202ba848ce0f1a549c33, 0x63b7facf1697e72a797453bd1ddf5a396cbdb380c2161d0029bc21350c05681, 0x11b792dca6149e132c195ed536fcafdfd09f544c194bef60363c44f766967aa2);
  (0xedc100775d0e753b864e9c138af3e85ce9babbdc55156e5f125b981bbfd6f520, 0xf7970935472ae5c94d6ec18bb244f880eb42c11aa9fd2e3f17c635bfa71fb9e9, 0x5919f4ea83e179a72e81a0de8588ceef6e4f52c25ded44e4287ea80672e0d5bc, 0x16a9846ca9bc920267a4885b53d669e969c14d91edfd51f010f3b11bc401df340, 0xdcceec5eb6474c849fb28ed8a99b7ec5e212ccd45eb1bba0a718440326ce39f9, -0x9b1e3440b4061d77b5eb2860cf804a5565c6c157ff9d467f5416e2a4d5c7ae5d);
  (0x7a5876e995a23ca415b6401e8f1422044eb5d628b8e7f1be2f2b23b179638ce4, 0xb19d2673eca5e243f1c31911340594416bf091de07c7913318c2f3cf6617c23e, 0xa69ee2f47d2dd9b0d596408e964aed25929b222cda616c4b171a40d8821b990f, -0x3c24ba777e3cca192d8df48ba8832ffc3b7209f90d433865ab43196895b56ee0, 0x3a786fe89a71ac695e308a848d8d66707a9fb91a06767fb365a7cacd3ac8447f, 0x217144771f75cccae96b9703c0eb1b7a1adc4fe09d637dc644de7a3668d4d94f);
  (0x34448962937c0d600c1967e421707c61a59d1c4adf47d1aaf76ca775be803070, 0xaba15a8a305046eeb0b8d17ac8d178f898059e2f9bf6cc330eaa963207eb5b80, 0x63ba30fd20383cedd6d81eb0a27de080f2f5797cd8a67404fb35db7e1bade23d, -0x12da64b7b3254495b6276c040048b7ad911cfb033e639ed43a4aa6d03b4801fd4, 0xaabea295203672626337da99710f7ee09fc9b8c62b21c37c3d21ab2feb7aa3c, 0x138bf83b24e0bec812d912aa55817a2db8c1e2fc68a7ce2843394df47318c6c);
  (0xec9d8b600f104ad578eea08a5a5f33d2386a46be5c8b144f525b5952a98bf573, 0xda73c8131e2e6e6371a06cc795d28e7f6a17169a18b397a9f166941b0b7a2059, 0x7eca5490e62aee0b1f00e37a479265ff4124fb874d9bdffb20e2cff43eeb711b, -0x2e1bec52f39ffd13d872feafc4d7e3396fab2a9d1ab832df2f6b0bc2a2fe43bd, 0xdab2d9ed5b79f85c5f2d27ec4a5c36c90474771a9c9182a610fab4a302d8ff48, -0x2b46cd853b6669606486e3f46a5529af406b9f814386e40e7875e40a735d4b9d);
  (0xf8840516c757d0a6c6f15a190cba025bea247396f2dbc670ddb91854bb82dc9d, 0x2e020ddc930b30921eaae4814dc1efdcd42d8904cac5765f95ba663c416dfb3c, 0xf7251e58f94510d94a2055fa0ce1f7c6d103a47db0ff2c03c72945bf5e193c3b, -0x1391165cf5bebefdebff890fe622fce19e408fc500b94872c2fed78c6e141bb5b, 0xf1400df161d19ca299e8cc67d633dd3ef553b2aa1d1993fcaca605c6856adb95, 0xa7671a766b9a8269bb485174339fca62c793bdc4f54677579d41d8c03c96e9fd);
  (0x206dae4437a18c0b68bd3443b585779c016fcdf4c643b36a18e520f8ece00a7a, 0x29aa00ee6fd4630fc9c99dc934eb89aee0c600be9b29f96510f6f4ba7f1bf6f3, 0x4f4d9e632326c0f3778a3035a88376dfd151c329f056556ead175fada5652bb8, 0x997fdd43cbb278e4003a60087c46274b8e358c5d3aaea8f603f974187290495, 0x41b9a8eeaa09061502f36bea09145caaa2547759ca4b811690edd16a0c57533, 0x8cde1046eacbbe094e2952d735b61320f5a76c4b41bc1238028cb3acfa97d9);
  (0xb2307fd8e73711cbd2a5acb254cd6366ea58393ed307b03dcd9b9dd2666038d2, 0xc913c5c174537cf7904f3ddc1be161da8afd731de426043765d87fc39ff3e1b7, 0x14af55d0081934f6eb9ca3ba1dbf93ba5d8c308e73dbd6258962560e287e823b, 0x5a0e4cfdd1f2a59602f7a2a6f61c1da6ddd900c69a36bccab99088d41f45422b, 0x7c077af9d2b83695bec8133316b1fd6f12615126ae4862f222b6b2d3c5ba5109, -0x6ef5be4c2a8eb4878117a5e1bc043d25a8ed6c65956a4485d61b9b817774a335);
  (0x182ff63b52c5f822dc158ee256f391cc6756095669c3d4d07254f4072031e273, 0xba7e7b78e1ff713857bcc6432dcee5f7c6ca7fc8f84af479811bcabec921305e, 0x9af35ca9e7eb93ee3a3dbe010e3c2ca3522a78c826e0d8bf2942dc057e7c48ac, -0x77edde9248d2607fca2624cfdbab695cc4f5008bee84c8ff38728dc84883db6, 0x24907277623940b60f7a5cdf31c8c15ecbb866abd77a0f14d6a51c4e83a9ec4, 0x160ba66478bb2ae971ccb97628c4e703e92c3cea70e38b5ad6d803fb664062c);
  (0x2573d5756ec32c905e510a4ed8efd39fd4da7ce8f4300c38b82ed0b8898024a8, 0xb13c3c5ad6ad58295335bda8f31dca8d7d0c5e113967ae99ab4bb325f2a432dd, 0xa8c48d1d310fa2a90cdc96d07d4c1c27861e302089e999e7d32979639fe6e808, -0x16a3d8be6ce6dd0b2f1e6e267d7ae8282f6f2f819ad2ac326520844d57f2f47f4, 0x57ab01d6b828e6afb7371cc1b8621dd4682b46d6009cf9087e6a4412c4a5309, 0x15ac39a0fee51d8810b523109ab1127322a875c85c70ef11402cdf575a62e4c);
  (0xfff61f6a679952b10282c9d6b4964bab529faa70b621f2b31d3c88f0f7c7cc9e, 0xae2fc2c46894bd8b6c1e2be9cd4f96394eff4e894ad650183c596241c771972d, 0xbc2da1c8719a02c01d4d9f9fbda577ce239cb062bf649e7b957d700d44a851d, -0x377bb1c0cfaf064a8552e868a36c725f6dcef100caeec6823a4adc5a72ce479a, 0xffec3f365ebd7eb8a61d7705c7e7bfe2f8cac9647a8e5b833d69b6a05b3aebbe, 0x30c5b797557b5a2b9a34a1134edb684e95c70283205babc968e92f58debd875);
  (0xd734a7e52dbb035ffdc25990fa1ccdc84e14ba899f6c60d22620b21347e3109f, 0xeae9ab6886a650d4a2164ebeef9df2307bffe9acc382dff3512f27417dbb982, 0x24d302792cbeaa7b9b0b87c9c3bbb6fcb382d57dd711d9e4b9f243a3537b003c, -0x14fc8c01275818c0269ca333121ab2580f34860cf75fbabc78b678cecc827355b, 0xb4e97cd79607827972621803230fd267ca27267177dd01a27042d9465fe5312b, 0x8616477bd63d340e12d196ffb98c7ee0f2f2fde843a9c31519a66d8b20b022e4);
  (0xd4884fb8826291f77f821c16080f56a85c05dd6a22b2a11eeb48cda23c3ead0a, 0x70f0a449e8b0a1f0771cf4139b37457bf4fc3a7876c19832da1a716d9bbea678, 0xad2dd5e1e989c3e17d98cafa0b92c98444e22421d2d4def873043d7994ebefc2, 0x58e2167d4a338620cd4180a9e51da305cefdad00b69f420621f4e656372d37a0, 0xb0720c9e64d12ff18857cf6f5f5802548a4739279ae71857db8ab5282c8011ce, -0x5193019c547c0a8a409905f3dd2d7f3423c2f502de04558ee1e6f00a4db3c186);
  (0x53dee14e1e679efe0fa5ddbb4474c4bc3b62c38fb29ad2f66b32d02cf7769e26, 0xd7eee2be7070043e94471595afa4277d18b3fc9a14317e0c787123addda0bd1, 0xadd2384295f3faf830e57b12140dce6a27406998806ad9b4ab539021dd9b09b9, -0x240110dbaa901ecedcff50b447c48102cabd7b9e98c0568ea64e7c74e83d3d58, 0x1b7a4824317e56192f049efbf6decd6e5a7c44d4146665bbd11ed0e5194e818d, 0x2094722cf214e0fa67f9fa78eca7e0c29557d84c3653a665015267ff230c18e1);
  (0xca38791b0a89b2e2b2fe934b7923fa72237c623fecb30bfadd6410fd49ef94c, 0xe13ee144b3542b0beb28a828e543be6eca9c8220476c5863e05d252746961ad6, 0x62171f802f60fc863d47cafce8c65dd727b175c824c4f40229d08d092c17ff4f, 0x5581f6094e0e6d9a070a90bf78a87a2b65a9feba1832d83e18ac799a50acffb, 0x9fbd2b93e1c07d5d6a3d24e49ec1b30f59fd0adf66561133534064483c7b7f, -0xa7442bfad67e56003d64c562a1282d7c99106b75fa04e1be8b5e95f2dff27bc);
  (0xb863f4f981f73bb8ce379072cb8929e3d5143b31be0ba2850acd8d2a9428a15b, 0xa08f0350bba56e7950225f99bed7635397ed80cb92f515ddfdb48aa1f6ced06f, 0xe1871678108b5875a744b1f6ca68fccb2a198195ef3d7154e00af6aaf1dfe03e, -0x1c540ef600a4f7c78f490f23434fa7655eadf78ebb6fa667f176ab17c69a55d1e, 0x84cfd72e0e3a7dff3824ee2e5d310ede7268b464bf2008e3b0aea12b37698e22, 0x2e97a970dad0e21911acf4dfc52ed3eb7d51f93b4068347120733cf7ead772f0);
  (0x4e236135fb12ae1dd09f7b6c4362369ab0f04edf24575a62633b681957080d9, 0xef2f63c8623a24ee11f1267272e83312c5b22f59baa7058d173bdb69ae49d08d, 0x8bf841e9c5411178ea137331449e6d2cdf706278d425c2727214d0712b40b9ea, -0xbd8ed0a9465f598103ff4cf4b21b42b267dd4f651ee344969d4fe4228d0d97, 0x17d994209eabfcdbdb348e0e5ff2098ae77366d72f1e3431d5187e9457de33, -0x17ffbb2cfdfb60269d7c937c611a06aec09a11ddd1cda8b9ad2cdf88d0f924a);
  (0x4df58bfddc64feed703e053aeb426c49b42ef4e12cf39569dd1c47b17ace3b8f, 0x6b91db3d3e9a6d2d58ce76a0801b2aff2942e5a4d66a7f91b7a63972435bab1d, 0xd718d29ab9a9e4b569a6c7de00c39ad4e6d277a1f440962e3295ef3cea08a943, -0x2492cb557da3fb80dbf5d4c8bd6f2762dca6ae5a57632b191b056674437b2e0a1, 0x17bda1bbf70a43bdd2319d0ee8d6e49c2f281816146ac745274bdd578f2d5076, 0x28149fce9402edeb09bc4c1b5fdc2ba61d3eb0ac5c85b9f67c0034e0859ff80d);
  (0x92776b0dafe4eca1bf06e30cd3425605d46299b3dd71d5ad3dce56797550eaf0, 0x5c80e967f23c46f30f5613c5c603c4f5b00e7baa13ef3edf26a1f2c9ebd05ee3, 0xca83a556f372bc3fb19ec49541636d5cce9f48aad64ef508c2faa983125bb0d6, 0x81c040d988e882a1ce933774a8ba69c925d87a76b3f435fd5db72fc511e9a15, 0x53cc6dd0501f1681302d79ba5d6626c807d30983d8506265649847525ab81518, 0x89eb118f2feaea692c442ba0b772b5672b86f81f059919df9b94e4cb3081f69);
  (0xc6833c3264fd8e7192fd60e10366d4d696497985bbec4ad97f9b79462e2fea0c, 0x7ca485c2f4ea20dfacb7013cbbcac1fa5397baacef302c92e1f840a54a78041e, 0xb20a8fd5bb0d8d51b59f5e525e43b00c0df30fd8ba619536cb2410b06804dc3b, 0xd5cc8bb44fb42c2df66ac91b2f5bef8b6d158b71ed848574d55707174856e8db, 0x99ef44649df33d19ed4454dcfe848becc2ff64af16f9f49fa233799b40787514, -0x18ec04b612ec7211e0b9b27d6c52727bbea11de0d4ac187c211c1e514569d53b);
  (0x1bb82722844f690161c0d8bbb1cd95161b50cf17a41214fd660fafb194ccf374, 0x8c0ff854cd20543bad4512784da03c67599eee0c933a4ef03763d3a4457688f8, 0x167ba1149cd05126ac16fa949d78e9e331a2d62af211e0a30ec31385c75d88aa, -0x505b241729ebe6a38a018553162a71e7473616690d5f7126764e42ab4a55db, 0x3005cb98f827b44d8138001454f0dba4565c38174a523b7f490f963cfaff3be, -0x1ab6cab2d52bd3d4cff7bbde6d12c1a302e7938290a4eadab30771d48ff98e3);
  (0xf792a479fc3f4b006bc0a43c4c60e7d3f356d33e56a6f2a22ca8ac6f024f0805, 0xc043d6081fca2bfb1871747fb2f854ad2deb0d94af937ffba0604c5199138d86, 0x2329cc4d5fcd9d22cd26375614a4c164e75a3d2896f446bbd3fa99cb4e0ac40f, -0xba6817160be3629066972e8b5f73a10a2badd631f9586eec61f64652848ff4a4, 0xef6c4d636992603de0e2c06b33042c0a63981febd9f057000f7cee93817871cd, -0x327bf2068f01a508f87d93792963fefb5abb93f761795dbec3c3a338517439b1);
  (0x2cf6c4b0820a957e7aa0f16c4f1159824389a7cf44dc0729707faa7b91efac28, 0xb672254fc15aa38206bea89025d8c38ba964408ace1af13da272288e1ce2a42, 0xfbd842c296c3fe391e73197bd3353c21f3712008ace060dc9b51ed8601b88d75, -0xc62e99389439dd3d4625b3a309342106cc85712dcdd7b36f700f58e4b1b9477, 0x7e5c17b470c508e0ec0fa40c0093d1d3d72fafaa0b7657d7794d35bc5a95f20, 0x1fc445ed257795bec0696c0169e508c9807eea95aff0ef223d4bd29c4cbd1da4);
  (0xdbea84bdbe79d31de5ff551604ff4e4e3a888a9e1fee97a1f696ea2385bed8b0, 0x85d711fea9b580787505c392214f6bb55a80d7d8d2a3ae5e16cdc1e105f21a2e, 0x6a0d9c1da4a0459abfa11fcc1b44f3d731e8bbe273f2b71150907e39bef8fe84, 0x1af2b5b3f7aa8b744a08f948393fad2673dd23c9f5a8b44b9ca243945a6133e6c, 0xbceb15f39398defb897cf109c55504ab97dcfc59551d62fdf5839a68e56ae112, -0x692debd3aff135ef3dee3be09a1b50920b98d74ba19d91a92e1e1fa29575ea17);
  (0x90bf7663bdc4e6d78332bfde61ad4e1cd57db66bc6d1a5ea8feb6377c0428204, 0x8c6e95197ce70054c890539d82fda732739c173479473e99f2146b4012818614, 0x29a7b0b63382d7447bb27759a4594d2c0e980318479b915f7d5f73babdbd733c, -0x6d6ec77dcbcd3457d1415b9b8f0a2cad5d995c4faa3dbb0f31d7a0791ec9d34, 0x51d7f4621512c950c0f469833fbbeab74b3f4e1b3b5fa29ba4bb8c6ec8f1efaa, -0x3ba27d64fb8684fac538f4e8c42956aa3241ea9402c3ef1e3de50ac780d5a28);
  (0xb1b927bbe4f17c53994f61929fc540bfdf36fabe2c44a77620ef8cb461a05820, 0x567f3e328f3ae0994490dc553ede503c71ae979463b6ed70142282a5e6652076, 0xee900539019fa09e3c86f09b6e3cdd4b28c98b62f6ef68aae61d945d7c9bfeb9, -0xad4544e17429aed0c89e5fcc7e98f7adda1aea33b0448a42050d7fb12cb0b950, 0x7b618edc46519c9b243f7dc02b6a0c98fa592a573af2131d3e13513cb5b87c3e, 0x25717d6a8383762070679bd139c46e09da265337573b510ea7df36afdd4d1125);
  (0xf7c67d831900b7916f895052a0059974f3c6ef5e5d3a297603d3d3188fc69677, 0xf1336369db01f727ee421765588f5db6413bd6cad2af95d0fc45cbddbecee781, 0xe1d2db4cc4f920541b283c230605e460c203e04e1b409b1e0f4c16dec4f3bfc5, 0x221d4402c96cd6f0115a22dc35f8a3f88527cfb489f603ba8e4bdfbf56e7e761, 0xefd0a0195e9358e3e6a48b06dafd4d644b26d10cf8fb591b25d79f8b8a4515de, -0x95bbc3165258c49c256696b2e0b7e6d4f922f08955f2ad67a370e23d385af555);
  (0x840bf5343809468827fe4fced31324995ba6eb48219847dd627a7244cddd884d, 0xf93472e1293d9b7b952485d41dba485e97868d7e345943212538ef438ed60965, 0xf833944e1c597bd1e593c1d03b1eaf10847cb029408e1c281b21096b94569b3c, -0x1c0ced79a776587b6c97f644b21bd115dbe6190b2f1f9dce013bce55a9ddab24f, 0x441c556cd7235f7109fb0536c404fe816083023337d7c90be976f002f0d502de, -0x420ebafd43bf5065a601c18b8b00e8d42aaface7e4e701a354e96b6f4971e7b);
  (0x2451e22327463a96200349fc8b71b56548c54faaf0a7bc7d15529aa8603c4d8c, 0x21ff143c17ee373b7f66ac345c054f134440888bc76d3150228395ef5c9c01bc, 0x3be70aeb10991663de51a4b8eeb56742797db57dc8769fdf82794be0c6131607, -0x12155eaf715aefb5cb4fd8ca8d153f05887ff863d9e9631bf9ff5578ac9bace8, 0x52721cac50cb1170eacbd943dd33b1e99e8d693b7a5255401c93f162a55c2d9, 0x1e88574cd38779548216f9e777c7960876b8a4d57eef9f0c810584fc7e1a6727);
  (0xe5fae193159084f8528ffa90342792029cff2f1d3e816df2ea4d6f488f751ac6, 0x73c975311be30a822540cb91067c5a389289986adf8c2aa842a7dd8398990a74, 0xc8e30622fe2c233806192dfcc1e13bbd566d0c66e7aa0798db4ed904a7ac669b, 0x5e157e3866f7fa2a6cf5e37d437aa325fdd65324dfc222ebc1c154e0b0fef49c, 0xce9acd6e7e9e8c91c83d1531e0b96ce564d958d00484cf929182c23691110a48, -0x497a306fb920a9864c32e4008591e3c5e6fdd6042987fb97a11c16255126edae);
  (0xb83c1c2c9af899a6371769e1c6de7227a234f115b608559be303c65fde028566, 0xed7f09d8fb9f0df7fc51b55e13da851bcdcd506796322f62e74698ce8f409c33, 0x2fa3b0a656a43cf1733de2ec250adc26f72e24fc618d12ff8d1021fbd25678, 0x449738059e49d8b2c3e876ce72dbdaf0261a4e614cc215be5d6262fe7b3dbb5, 0x8496769d56c7cb12f9fcb2a44775c801c4ad3ef76d7a9f72acde9cc655277dab, -0x579716cc914ce84211e3c22aeaecd23d392cc9a834947c34ad47fd4f1938bc63);
  (0x33d81c3daac368d14470db3c04b2b8970860e1c0e5ff7fe25478ceb52b6420ac, 0x83fca6fefae308407ec28f2d56f9284ec2d7518c42b2e136243798ceca8a56a1, 0xe0d2d5e611c2cc9bee143276c4ef1d5eb3d12be1fa2545b38005d65431a86ade, -0x294ea1a2c778bf77eb0a2104801bc0115b391e66dabfc267c32323d0c658868b5, 0xa7fd1b03d3791b9d45e4cddf583988b3a2126b6227c0dbdba9001dbea67e4c7, 0x155e0b58835898f8669eb8cc20a43ae74890045acad8108dde7c22be3e8034de);
  (0x850cc4d935ae0a8674ebf5ea92f38ede47e98e1f02e478e0c2a50ceb5ffab32a, 0xaad2decbd6f81096f56d83f6d468efa5e254ed96de60fbe288501d4b08ea1994, 0xc896d9782a9976f21b4dbc9202adb0cfae684298b56069f0b035f356b2756dad, -0x552da4de0d4d9746848713d8715e82745ac5ce16cd43ba38fd7260575483fec, 0x4526452cbd8131bf3e85654e4ee45e50e697102a33a0d58617099d94a396ed99, -0x142f3ae50264243812c4a96bdee53f34e0ba5870341fdf7584780a6da8d701e7);
  (0xdb3ab30aeeb3407905cb4cd5376fa82b0d04be013fa13ec1874252629371b024, 0x88558a71945b8e6d228d499bf955c1092f29fe21735fb0a2b0d92eb8cba96302, 0xb7c64edf77a00e6948f5421dfac21f889e80b8e9b0ed8fb1652b50a53ef060dd, 0x197dc3733d15be0f56e9562cf26e8e16f7083eb3cd578e40065cb72fa35a988, 0xbbbd7bca529323ce777c86869f0b2dc65ba74d5c9aee64cab374bdba0993a7fa, 0x1d891fad6e780da6d62546f20f07911e83a43f52d0ee9e616a0b91a0c9de8c62);
  (0x9c1e0d91dac37d1b380cc87b5daba9e4b1fe00284ee84c461e456d2926ecab8d, 0x9f31763de5c29243026bb1f8d89fbde0ab09d7ac686954f4ce61aa9142768ce, 0xe665e5637999e0b2538455a63050c416900dc9d2de52bbb820842e350eba279f, -0x8e5d0640979ea6a750d429fbb94d4643bc8b371ea50192cb03b4b295b767853, 0x5f34a410f185a99be5caba3651fb8f1af8786395b095ae9825c10d7ab41b368f, 0x4d12d458d81e2b6332b8c45566db01d155bc4ebd601968d5e793c61538584e58);
  (0x94143d460ac5968e69950b84ff0c31708467c65ec9d6603a108e31f07b0aed31, 0xc973b772f97c0a359bfe527bce55a1b968aa122864742e68ab26b7620614071e, 0x6feae0f77ca29d289c281fe2fdd1f02fcf60ed37298a867cb10fe1f6d0bab75f, 0x109614402307a3fa2dc76ba35f6be5612267716f217dd120857e8b3f0c70d5b0e, 0x55a768729e1099403e97111288a6f89731e90f7e15013fbed51108c1be278309, -0x6ec5806b483abf0f53d9c288fdc4e96614a1e5fc58c79611dfd052ae44f34f12);
  (0xae2892d821619350acf649d9b047175e04193dae025d3d5f529d65eb7b4b411b, 0x762620471b98aefaf0bb63852401714bab504843dd5d5984fb32684d42a7d971, 0xd8d0fdab756772bb1b6f5332b4d90751a0ba6f22b8435c28b84d6b4e70761356, -0x3639df13316a6eef78e2b3d3c7b9c54481e336a98a174b0025fe608cc482eb75, 0x767b2e0c05264f4b595fc3f39000f823279635a3d2a86d125bf325c3f55043ee, 0x38abf0a8043685e9c0fdc63d6448f574d45a18229fda90bab449e2832024d096);
  (0xd199bee5edcd80195e58a03ff11d217efa4bd55796ae4da1a5233cda3a5640ce, 0xae34cf24d8814cd01647969be0e0cc38e9d8c62af82432d0fddf9294944c6f26, 0x180b6b6dd47308c81f1001b047a4ba0dcf61bc204b740262e3c1f5b434c7db03, 0xbf74290f6a083b86a09b049f72aef7aad5a549c410f75f8b4c3ecb403a2edf4b, 0xab9c66092b79e64ce312752badf7f5533579f456e2685b06ddc3e90b80b1dd04, -0x2de5a756c8bd66222e3ea6e1eb7bd39120e807c62d85bfee810f98f2cf0e6f31);
  (0xfd3f35ae90e60e68bb9ee7415c8761319c6859e894542398558c13b02008fe19, 0x84c658851f4a62881595c02cc1de0c6476655b3b99205ffa4bac16fc4903ca22, 0x7f6d78643f592f7ac7e2763a26cdc006e083e4d6b4826ce16844114bc24ebe7e, -0x33e5f98ff7b1a5f8b5a1f2b74fca0e1007c12ff344cdd9ea18d78b2712082add, 0xfa85ffb68193c8bea71b004f92e612f7294b0b95fd39b031adec19dbf600223f, 0x28fc661b2a70ea427ba5b2294166273698b41186424f14dadbc023ff89884a8d);
  (0x2001b659f6aa63038ebc76e9dc176a66951d74d7673d9098eedd9634316fbe37, 0x6ed8ec67515a306836d525a544d9a3dc972d86a5425a2b44692a7736b2b77ed5, 0xe391545f48be53d89bd2fc70861c02fac0ae613ed13953bcfde20df263e87bef, -0xaeba5c65c6eba88d91bdd7f2ed7b3859a795f4b073addf12cf07196c1388b118, 0x4006d996c42906d5ea40a531a504d9e9b34f6c05ea7dd9228e639eb290fe8c8, 0x2bdd30fa5645903189d3aaf8549a694f4e107813fc5d6fa0f850b86616efb42);
  (0xa5f01a846dd6063ac66bfa48a879fe5b448bc9da3916cee23a43be4478306ec5, 0x682c8480c4dc3fe3594c9d39e37ff9e428e7473fafa4fff78303a7a2ee74c195, 0x421a39469daf6a27f295b9eb7bbdbcc481c5fd2387e2df15790f771e5a65cad1, 0x7101ff4a7304a89a0fd55cbdd48bdf85578a1c4632ba2ed9d23cc74f917a59a, 0x6b8f636070a300245f158c3df6fc8238fa5b246d761fa35f39b3a592d9d30519, 0x4536149f700dbc1f1ec5e179c9a0c638f53466c1b21da28ab610a34bee67c80);
  (0xf22d7a098199475a8e37abebfab1b57554124dbbaf249ae015721fd5bcf49cb, 0x9bb40fe28808d025989a6cb52c98ee1da9de25b266f6da543894f842a7267977, 0x21d9963cf8f38ecd8251a4db949b4ff5b1d7557c7c84172a142293feb569ea53, -0x775b892ad99e023d0b99134d90a9a38ca80661cdeadc8f246362958a124cbc5b, 0xe51a02ce1a8a6aaac11c6a37482a93cf21e116e2a008b5426636ab0ee06d28, -0x30bf49266cf614427783ef2d1bcea863aced4eeee726d934e56a2bd480005c6);
  (0x768255742da33703d1c25c7886929f283c4319245da1ec5403e485d7040bdb84, 0x4a3d382c03f335698f7858468d78547c7a1093522c809b7a596805feea841dc4, 0x2316409e4050d87689e41a0a2d10cab065f8776fa3b100983df6780beb891f2d, -0xfb88629e2b328a0fcb2caec5f3dd9c26b17bfcef91eb5fca262af3f4421926f, 0x36dc692200972b832bd564cca271c46e49efd1ac48cede23a42bcef2278c7653, 0x25b640f9199034f273c768071fc724d7c080fa7b16d882f5ebca8bf2e9656df4);
  (0x13c8d40371df66fe1a8fd4efaa2987cba6b1351b438951b8bbd7d86a52f2654e, 0xec1f2f07fa75c2cc70b94e459e6f8ad1d450a4e320da66b5a1181e622970fd2c, 0x7476db7cadad42eeda0629b30d0eadad560c1ccfc474bbe59f4da19f00da09ca, -0x3b29fedd892e5381d555dc3b4d9ad83f2887e78aeda9dbe14f8df203471f4e7c, 0x1876d0477decb0085731c2c0d5cb47312736b1bd2bf45efbd1fae519a6c31f0, -0xc82c3ec7d3a5622a55b2d3edf552e01c630fe7c4d7035a0e1abebd53570ab09);
  (0x3e05cb92b89ba11163eae1939a0c4a15b5d0166d2729e60d1712e33e378dc4d1, 0x898e40879d9c33341a879198fcf9c99dbe6fcbdfa7300f2ce50ddf2a8917e028, 0x2765d6ef54e812d0a67bef03e9a0e624e721e4fd4032b1a5537265b1f04f1c9, -0x1bb6076965842d0520ae496a5c902e625a5305b8f048f19fc3f9c29215c8a8de, 0xf06cebca7089cf69f290ee23812de95ce8828d14c5cdd207ffe7d87cab3375b, 0x17e154f929da670cae570f4f5fca232083a0b7cc5fa29cffbefbd369b300b51f);
  (0x9ee7121ce457b0c95449a7c47a91a300d867c95108b19ef361f8ec42ef9937d0, 0xa933ad582c6f72562808ae4286d0706cdac4d3c6a5a1b45cadbbb2fed40d27a1, 0x7af17934739e656f2b0d68a3b9c0c2fd21f519aa60168b0769bf57253a0eb708, -0xdaae230b9fc03007a4ee4468a973309d54da4bc4e0806c629650c3ecccf9ebe0, 0x62a20aed5b4867d8a31854d858a53b6141652e1c574ade774e944818e6c89121, -0x13a4a9ab1c4ffe6bcdcd0e71e02eb7cf685377ad3b7bb68cee45810b30d58aaf);
  (0x68be75e98880850d0f2b25c6f942754d24d8fd1a75562e91c00e444bdb6e526a, 0x21d0fb8dc3374534f5c23cafc8b0dfbe6642ef663d2ce149a06a7290293690f, 0x4b84f5b6d9e190610b5125d65572cd3a120ea92c4d2733e180c47fc402aee9dc, -0x136af3aeb62c03d5cd92ef6e4e3530eabed1e0ab2c83a7fc47ff4a84dfeec6b6, 0x2adb4d80fbde56af580e8243fd4637b3d6fd93d7478137fc83a2adc753c11b24, 0x445d7fc7778d1745d80ca5551a2f2681bb786e406c2d85108d06ee1aeaf6f970);
  (0xff9692bc153fdd34a3e639d20835531e1fa4ecab124acd020d04d3aa038f40f0, 0xbc3f7c4f8fcc91ca07e7acff73874db9d4b522b6a773b0c70e90ef08cacfd08c, 0x81f064b3572f1fe821c34526f5d43983c1e15f4287bed6118f145f2741fddd69, 0x96be51427b9003007b95f4b63f9a63464e679402f7dbed2d078262c52264b5b3, 0xff2d50e2fad933f228153378c484b687b47bfb27693374b59a0d24460f9c438a, -0xb9d5c5061fdbb360d05bb1b94d025398871f6d4d467adc465a742a366980649b);
  (0x6d0c6bec6b0a25b6c94a9690c4ed47b8592c145daeadd0f803f6f8963a64d19a, 0xd7b94c32e4506585a45f668439251be2a0d064739e831594b6719092eb32c710, 0xfc1dabcaeb827239535be1dee794255af0aebdcfe79783e9644692416a382c6d, -0x1c543060348b075352ecff4bf9ba7cff424f26898d367aea9dbad18cd9562a99, 0x2e7394819ed028e1338a346aa4c1913e50701d55f85fc1ccbcc3f680758b6990, -0xbb432ced350c1ec2de59e07d4dc92c2d26b0455d5c88bba9ac89293473b5522);
  (0x39967194978e4ca8f5847a20ffb23c6afe7b29b787adf79f428a7e06b701e32d, 0x139fcb9c3dc1e385003e0f064759a8ca85f1f2d6b2e00d692b1634b0076936a8, 0x9a8272bdb97fcbdcd42e3349d93c2c3387d02612ce14e76901c1620f35ce1d3e, -0x1afecc3598e0ab65d8c3a40291f9f64da5b0fc944eccf4a1f2c239d35d04b02b2, 0xcf456fd78037cf04943af45198ec3fdae3c07bb992778e96311da7a6dc7e3af, 0x2c1ceb93f7f434c6b17a79a3ec396dd39c546f9dbe13f1ea81a9a72c4b7310f3);
  (0x70c83f08b44ba5724d92c2eb9419c939608e92ac2e21a7bcbed4fcafa973816, 0x83ef8b9191ca25747f5b37a1539d3ad1762b5a5cbaf2d0ee00c6728a87b38e3b, 0xfb861e0fa344375d5835ad9b5097cabec4ecd0a7c420aefd3b4f171fcfbfe1f6, 0x2cfd44d1346d08c8af350077b02c7d1aa585388de38f8e2580d786e24fa8dba, 0x31afd3ca2ae12fff859cb034dfc67b1c6c925e6a667805e6e5e4fbd52679e7, -0x317abdf0be41e5903b6e773c36f4fcaed8834302fcb0bfdc1e9acbe1e856c0a);
  (0x9b7734666085e78da3a0b58d3ed86ecbc4888ce7f4b338f9f7bc496b5ce4ae5b, 0x502f1d391821f5a85f7809b612bad773787e992d40fe7ab33ac2e17f0d28de0, 0x1758bf90880f2d3ece3f7ff00bd8ac8364730cd395bc8c2ea38c4067dde58198, 0x65818b17e7b0e78c2cffa6948a44a339f5b76fc57ba456cedc2742b9ee4dc637, 0x5e6990f5bac9a30a3efd7e4e26920a480611b4df0cdaa701171911032a98566d, 0x4d145b0c52d8b45025fe9d8fbbc1ff4f856a9ac64aa67d1f6649da2f4ee51c25);
  (0xcd11e957919ab1baa1c2a4623f859c2a5c25cc7d659283929513e274dd6c0dac, 0xd8e2c3e19bd02b15ace3a77a5acd97b92c9e97d7e5d109ec33f9cad7583eb1c8, 0xff22eeeb67273372cd8435beae9db45d2807a1a6ceb87aa3391b8f40ecc3dc4, 0x5d8247468d3bdc50cea2a31ac50275fd5befa3f6fd6ed55bc6c6232e3f939b80, 0xa445b0f711839c306356593d2b7bb666a6d0f0117f10f06e1330b3e9139e0cb0, -0xa9b90e3160f02670b5cf998684ba7102616010503cbce793dde9ded0b6489184);
  (0x60711e6d8febbde20bb683012ec65ca2fd2fbd4f528e7c88b2d0ebc1323a98a3, 0xc1f62d4f047c4e535573512c8354a074c5b10d8083f46c1922edca76c1cbd620, 0x267fa56577a75fe6929f65d8438178957fb699c4cc151d2f05f6a3ed1e35281d, -0x21b3a9f7694badb2339fb3728bd80b4dfdf85daff72ec6961fc7262a434d62358, 0x245508ce0c47b9264a811dd5fd2edae45b0e2277b0d1b4bbff6849c8be8f7037, 0x8a2d99ef8b8cd3e9952e9c6ea3fca6bc5444dd498e9d713d029afb3b793e299);
  (0xbb5f81c1db4efde192811e9c18fb0247bba27044120bd6040fdaf6dcdaf3f621, 0xf2b8c03b0b71da516eaaba7470e9b51e139ea153909277001693c90b4e29fdf5, 0x88699681aa8094efa79151275a977a5179a6f76077582f11da3e0d719921e640, -0x34dbaf878a10393b225b0cebc563572ee0b331ecf5396967c202d66f289b8e4d, 0x8924ab32c60b1d59fe4bc1116dc88b8eeb4edc7f78e70ee916b595adeea4fbac, -0x23b0523de72b25287a5c8c4e88abb6c1f2d7ca271a376f083087bdd9569adfce);
  (0x844c870fd70e5e0839bbd92f8f66a7397f3b120dea4dd8f31014d4d93974eb7e, 0x34effb055e4edb223fbdf0b4fee33380e68bac8b374a990621d60b5ace010998, 0xdb38d9709bbbf2cfc6a859125b3dbda276191f65df9011781044a9d42a4c92fe, -0x22567007641761418cdcad9894fda41d35c04eafd9b83b30fa127d644adcac685, 0x445f0228ce70374c5ff0d41d1f9c803ae8127f91b0aae0e59f0b724dad79311e, 0x6214416ad76692bb5ea78de384c5ef5361c4a215e7f89c4ebd76eaa3804d82f8);
  (0xe86d3d213ce0751b1459ea7bb2b2d2487bfb4bc3778cb343cee44d4271f76cd2, 0x10417355e5627cd891eb37c55d52882bccc83fbae2145e7ab3aa48fcdcdc1e24, 0x7eb9f8f1528dde8c2127c5adf229a417dc798a91962a44f62a5699e6a6718198, 0x3e786db8165458ebc3a4f380e0a2b32f9cb23a20b3d03ab8f6dd66edce895a9a, 0xd3062d695b3d86b8861961f1d0a737338de90e3fd9a171a5259389802b8c4610, 0x214dd20924da10d1530cebce36d901679789ad675d3749d10531966540bbaa0e);
  (0x8dc6d60ce47cf022df5b6a2405fe27e827e8c9b4aa74bf9854429b4bf61461ef, 0x4bca298cda97861a3bf5e3e2110a99880956d91fef37b2c307499b26c70a8cc0, 0x2a0045e00e756a280b2c817bf451b3a80fcc5905d538c558f3e47566f0797291, 0x8944fa5f13527f0088d309d9b7c1e2a339a9d06fd2a7adb5330dc813dc571760, 0x4e84a23a029ca070f91bcdbd453e07ab6d5eb06facab591c9fa5165d0743da37, -0x20f889e07b6d2905a399cc64b3bb9ec1a7941387781986b1316b12e1b92884c3);
  (0x6c3c6a9bc06d13367cce6f18949a42901bbd382fcdca8d14da78a4b25e659577, 0x5cc9bb61bd6befe91f37e9298853502599c08e9b40245fa00bec593039f6f532, 0x27ff3a67474c99018a8607b8fc948e0db906f5cea70e9ad23f66113c08f5e393, 0x136de217849870843b25478968c443ae88cad289b19b8482cefc2fd930179e8f, 0x2dc308358fc39573e37add21ffefc3db7f23af4e30b8d696b57c4e75729df3e9, -0x72fd480277d23b4b691cb450fa8c247447327f8db6c7a40e20e26ee5dca427e);
  (0x569c0da55c00e50d3fa8a2fb8bfd6e2fed3f2e01b6fb2c83cdc77db61fca1085, 0x9a4f2e2923471765eebf1c9f0011fd91d6aebd3204a8c250b97cc44e5efe6d29, 0x943fb1a73f20af678f70df0efde5cd793d85684e1fa74878647a5b55cab39662, -0x49d49a61f0e50bdd081c18f18d7360ed0c999095435c5dbf12d1a7de062abcd2, 0x1d4d384bbc12f123e066233527427118b6d9ac49a95b64695214444955d2ec34, -0x14d0552871acf7cbfc61fe13cda240e65619edb38ee248d682a4e5b560ec5d38);
  (0x1dc48780f65d7f1baf557b0eb4cdc417e2043a29b2c779b283eb45641a8dee89, 0x7f7ec21dc9dd2af1e4cc182dea4b6c617f768c20d6ed5515be81767b69dbf318, 0x59c05847b30220bb72c0bfbcbcd39e078d7b8ba437f03523983548dc3a5280f3, -0x3c966b3e5fe575f713c04a217108b8a645d3a2b6f456fa60339f946a0c26141, 0x3761d92fd03b2c4cec3f9d00ef2327870bdad8eb5bb02bd190e73e5c8091408, 0x31e32016ccf8990329d4a08093a390651638c4434abe177d6ae20a1a43e8d7c);
  (0x2b5339cc3c5a99cd3033aba14d2a1b84555b7b57b1e6c9c951ed8ccf0ae668, 0xde5edf8c1fff2313eebc0c055e6f1a35dec07b24c91dc5e51840b84800dc3e8b, 0x88d8f0bbf80a0a4b48f4bcf39d923662b231b2b8470aef1e37ea3c22e6acd26a, -0xbe5ea91ebc37201bb29599d5ad58c8f6b6941ed3e88789fc54d3a4f66c85a3b0, 0x755107923c2283b405bb3cdfe9090d85069f589d5031659a875e14c888b, -0x100e7d06aac0c17b8febc2cc1cff760e7be794b27d59c9aa98f540ced316fb);
  (0xf13eb2a3b5286ce78ef10cc980fc2b1e94878c327e2b87c70416377404b14dfb, 0xc0e4d6bcad041c7983abee02026fc2983cbe736545dda6cef035b0caaae3b25b, 0x82fc196306edbdfa04ff0260e052001b3cbf5387fc7b2980a91b9991c4c61b3f, -0x5ed3b70a9fa33108b41ad14f16ed4314065f25c6756a4568cd9886a5093c50a1, 0xe3571bb33f09ed3d2469f8de7a057cc4fc88e0877fc3a4ebdccfcfabfde6d055, 0x1bc71a6b212bf3e1ea9d09c0f4d3836b89b5d5300588af5124cc224e9407b449);
  (0x15777a281223ea5514ec527f34aac11efef9ecf0191122b55c2c7d7ae7b65e35, 0x5f772f4fc9c401b8e33737e5b4c41b509875a094e61603f236dd87a8f8bdff7a, 0x9231b346b6214ffe1d80f4c5ea5858b4caca878b2de3f67adffce29b955a61f3, -0x19e108c7384710b041daf5191d0c9658dcfa257ee6c3c2dc39f992a6e3725201b, 0x1ccd1cd5e84f965b8639dc33a169b2135b97795f1624cde8d6cad941dc24a87, 0x82b77324415534073be57d74e1ceda82aed3611577600adec76dec8ca65950d);
  (0x91e2d4b313989225dff1c1dea3a2e3dcea12ec3b60022f3a2a60ac30ed5aafed, 0x5f0f49ba4a40833d40b93b12b12058ad4f419718f20731aae01c8704be1e02c1, 0xb860bde2f5fb72450d601f4bb6920264dafe4473796106cb2a371cb5375811a7, 0xef99ef5cd68135bed5753bca6149a69941e11c3cf0ae56799549d7f664ed7cf, 0x5322bdef191a84aa0d7a60f7974c5900b7fed3f5fc7aa3d17615e0a55734be4a, 0x3b3518ae0155d077676f5567ace984049c80bcca4f593f61aada092ddd9e45);
  (0xca717f2ad06050149e714fa98e9cb3534a3e305d7aafcd12779e19f8cebf8a97, 0x4bfa225413e8d3bf9d8a566ed1790f1ca0b0e4387f9387160c1a4dad16494e2d, 0xb2b18f7b06be8b8ece824c7f1e2acb7fe4ccf66d451b8d576c7750e1b9f4a714, 0xb9b71b59825656b297e29164c4a437cb3d0083a1979cd2f04e5e07b13b3adeb1, 0xa0174f0113cf754fd4ea1415fcf36b9742813f4310b897e4f3d714ef1cf1a23e, 0xf1726e7ba8bb6d1fbec4bb471bbde44406a47b137c951331bc218477a39ed3f);
  (0x70540af1dd215a4839af145f2dd96e72ee86038d0923faeb51d40539355040a4, 0x4390240e586f6406fab46fb45644464c8bb3894296879b88434d6100b096a72f, 0xcef9132108a58e03d8d157ced925298b0e79ba49083555baba3a7df55ed151bb, 0x1414e42e0aa4682767681624612ed95e91436dc6075043ce2fb44c92d0515198, 0x3149a52ad0ae16ab24bb477009de275d8ba5c56c20bd8578a1978e4e32f692a4, 0x3b1226207e256d54870c8abe964c60f5b4c0791d313a90dabe20981dd48e567);
  (0x94a3a867589ded60a4d4c39da744fd73fa9cd3d99386ea5d4109937093929ee6, 0x1680e664dae29b0d61e54230e32c04e14950a81781f6c2fbea0ad59152758aec, 0x44487cb2bf97f9bfde99237189bf5bafd4b30a66e7f40e7fb44f40630a7f77cc, 0xbada53824c5e4967409616b1adf1f87e71d0f1b3c77da69b59864a5c6d4f84af, 0x564da35760d9419bbcf8b9dabe17a4724fe727333860ef6de782fc8415baffc6, 0x1a299dfe70b267bd5db75eb3e3766b4114355ac599e446f57df41cacce6dc445);
  (0x1c22d7ae5b4cc23b514b2ab9707f58bd07983e00d77b97ca6887e66e27e7cf6c, 0x290e8085f1a90b6a783996578339f28754e09e0f97a7ed7731837c084ef61309, 0x40ee370ba0a6a83d6e5fdd8c114c8d7baa7ef2c57773b37962d0f60a6165d0dd, 0xae83bca1ca318a5c1b48796ce422fef7f4b32a126bb76d9b8482f9c89a70d9c, 0x317a3ec23ff5efbbcb15d98c030f63d735631820c43fe3ff59e3aa4b696406d, -0x20a034ba6312d2a5e4be383c5c0e949ac91464eb373379b374b3db04e93f42b);
  (0x860972c9f748d4b8b7b8d51dc1dc7d837071e36594736378d26cd51d6fff0d78, 0x1b41220d8f65d424e5b53b080fc057e25d62f0b5d92cbee639bdeb1e1a6f1754, 0x762e31c4e77213f19c2d66030d5f544ace2c02a0d8be7e470af0967e444882ac, 0x303d3aa303cacba452bac695be3259e76db38399247c1f52bef7184ee6037553, 0x462de484b48c2163720297000c48171344553ad607065e7a4dd7a7844e4caa46, 0x73a01dbad507ef331f0aa152bec4b62af5be67bdd8ff395b71bc3b59caedbe1);
  (0x50f91d9961dc9f24b60a3945127d446f59cf19dc0004c74355218e2a214c7677, 0x217daf90deb73bdf8b6709bb42093fdfaff6573fd47b630e2d3fdd4a8193a74d, 0x5c24544534ee67c11622a3f9caabfcecdcc0e9ff783b2da08f5bd4c727d0a08e, 0x1de31827d1535c2cc41f816218c6bef6fc05d61d22015e45d38ef2de770bff70, 0x199ca4ea74f65eb6a25dfd8a39199d92622c53e19f920932ed4a0ae6d3d6fe68, -0x1f8fdd7461c5b97b777a137d78c77a5c4571e1677b90f012a4c43dbd32d7e57);
  (0xaec30bb522ea06530a4c825d27a8642d2e54de040019594755fd88f254189b51, 0xe1670f22c418b910b269bf6db2a9ace620445f718b6b14c490fbdc132483ac7b, 0xca79e9e989f94203571073f2ece4d17b60e3fb69a80ef000aa80161eabd5ac2e, 0x70a8db6b293d957201c808c1f7b7cc78a948a93fccbbc21ea2d69665fd36d26f, 0x774db88511f2624904bcc5b1fdead1c2e981aeba28e6a938208aa43ab318f534, -0x8302d67fc752421c97b5ad266a2938e3566e250c08a70d26a09868b8d85bf5d6);
  (0x5c1dc63f9292de085a39bb0737a0b5366349725df6689a15831e2c1eb95cf854, 0x30de2c8bc2010aaebbb647c5bac00eb8028f78d795f2cd4532bc6c504c0e01e7, 0xc0d5c28aaf23d4094cbd1cfe466cc43bcd0de0f04f6eaf0ed010e43e8d02ead9, -0x254caafc27854eda2b41626e067681b9f4399216401b6a4648262932ca25c5da, 0x212569f435472b60f667fcb2ce5a9431929036a6c20aa4227bc6aa28a36cd04a, 0x3f85b9a5a5dfa6899ac3cad9de57606a8a3ce3690c0dfbcf59e0dccfcd6a97c7);
  (0x6416e00254cad57f9c8f0da2900ba58381c9fa956905906b58182bb65bd19569, 0xfa4b165033692a8b75a3fd73ff327771dcb4d32036a38afaf277716aa3619348, 0xc798a3abd11b3ffd2f046b1271f9f88b9903637d13415abfc21f2d4ce4a1b792, 0x7acd41a2478210b924d6c631bbd832f0a3be247c0fde4acb15e3929ead897f81, 0x2721e10d16a91e10c91f100780c11ac4c7467e3772fd3e256fe3e01c08759bf5, -0x4ec08aedf54b76c9e539364152d9c66d5ea204f3d0b6947a6e2a6990e0ccfa0c);
  (0x729d9c6000029fb5f61b5f6ae1a23f77c186693585aab23bd9e18d20c0e8ee64, 0x75d2a3afc5c841df0b2641024d0a3f5e98ac5b6609cd6d7ca41e82fcbe6f03a8, 0xd132b7e26ff4928728628f186821c9cd910ef6e8a57923cfab843e38d0b6698d, -0x398dcb18eed79352a3346cd35fb975d2d1e2a18128dae9a1d024a044db8db8fa, 0x3350c04ead477d7928fdcaff0d5a7628e5c8787ff19d8f480fd346ea953ad5f8, 0x3b4f31d4d03afdd8803f1194471b8c569ee4ce94a6609cf9519e41d215e86f6f);
  (0xb08d3b0ff2a61219c9fe4f6cc8558a0d2b164d481c18314bc8e14d9a8e2f6de, 0x3f4f40338f6e45c4d8232ce190bde577b47d932de5231c820b83a6575993a351, 0xc26da80852d921a90adbdb0d67703b84841438942cdd5ac618dd9b760877dc9d, -0x90a5dbdb09ce186c344e207e47e7d0464b8709143556c776133998863c9e840c, 0x79c27f200ad5feaa47f2976e3252261c97760cf13a0d8be41f0c169437a88d, 0x25986756de13d2c872a317d41bbc1e7c2f2b830437bb714f5f559cfa6c35b38);
  (0x615f38e01207114ff1861a43c5ebe1db8ab232c44ae354752c65e49e540e3563, 0xe6c694ff43eb93b1e4c0b547013c665f5493b0a800c80b22665880513abb4890, 0x806870a02c5a5ec4f52f5c80f09c46893ef53f0a49eb3eda9a130faa93ad1c6d, 0x1639d9bd3f0fc89ebc6a90b1e5804f7d30335dce0ef414d33b670e32e2fb3ac6, 0x25094c8510998860139325a161f70b7d4b504014ede0ee228cb71cef709fa830, -0x3fb2819e55bd3a4cf025ea8afa03e12dedc0015434b31835aef7cbed26e29e49);
  (0x527b6941229c941541a7dd9976accb0b824821e92a8f0d9cb6a73e9a160724be, 0xdef8b6920fdfb447254421ee84ca0e75da4c328d040055d6c0c048c6a83d1098, 0xb883c1be9315aa9f2e47ef79b66d5194fff12f75c71d2117d1e608d65852c68d, -0x21d5d9336a4679d8edccacde371f59f9927e19365d682f193146abd1a7fa6690c, 0x1a934aec0a0a104af4273b06c186588743fcf547ddd47e64a33c157e84f5ca74, 0x283b45e45b230d955367a2d892fbb405f118f53b1a605ca138e824888ac96ca);
  (0xfcefe7d2fcbda8097a3716a7251e36efdb713cb1eee281bb5c8abdcb6230e1b1, 0xc09cf8f24ea3a1f88129adedbb4b55de3f2a3d338866829f559160d60c5b3ed9, 0xd8571f3fae3996b71e75e9475d0d320d8b6238a236074d3b34d0edcb40d6ce97, -0x640443ee9783c755255fc1431c595ab7bd24b4ae71fb99fc31d3b9d232bb89c5, 0xf9e9313a0f77bef4503d60e57f54f47adc6d7d27ab7a33cea2e43fa22fea9228, 0x1dfec1cd17b209d5ce12c709482295c77cee1bf5fb024db20b83ea381d523e05);
  (0x557d86da23a0258e425f93b98d3ea3ab1b0de042fff9d114ad74066c3c184d83, 0x4d346daba0ac6f70d05dd51c34c1eec64f371f5882ef52b11de6f95e3d69be98, 0x1be41231f6434642286f34f2ad5522eddbb364d3f2b263a8390ee6232b42af61, -0x122457d42bae2343001d5c8b73f7e111d51c21591f252726f52ceff7d7ad94e07, 0x1c8c9919d3b83a817e065ba871e8e7d84f9621caebb058c7270ef60e85f9bc71, 0x268a4d1589431c0a36e919aba2bbf8943850d224273c2ab34d11e028c641baa5);
  (0xd162f4a771930b30b3b897386a5e94302065d4b187f4521023708bbf9b6bdc57, 0x8e9ea22bdeaf9b913617f7ceebcf75fc92e8ba3ade29276b182fd441f0bf90a0, 0xef6fb9d1de069aa07b16409d1fbc62314a3ce9a33b3607034907aa4e85460611, 0x246ddb866fa5d19c904daa1f7667474a0060d31edaaec14b88bbdb85c39019a7, 0xab42b9b9a174aadfc44d94b7190d48f254b5061c6976847ccaaa9d031a33080f, -0x3580fe08cf10430594af5c5ed34464a221ff7f771bbf21756b5038ea898f2ff6);
  (0x9c4356850d5094534e637566f6c726ba8fcb613037f678a716d442bc95fbac4, 0x63f7863cd87255db3a8ff6a1aa1c1aa65f8fd94fb3d4f49723995caf024961e5, 0x3400a2170b98c4ec2c396b73411f23964861cb3a5e8a6e3d23feccc167d997b, -0xdc1838930fe31546f082a9efc20dfad3f8d50681542cf2a264ee7a360bf5db88, 0x5f6223288f1cd70c25379eccb6d894109f83200de50bea97d66cf1a7f2ea05, 0x1a090d2c45c7b125528ed9d7e28bd761d99396a2f31f4849c3f70539773cc60);
  (0xfa631c4edff9cb1c88cbd69b6f188ff8701acf345655142187e3b89a7c84595f, 0x45c2c9108d48806948ee0c67d707e8148a04e224fabdd5c4ecd5aca14da25757, 0xa6ffc7ab5fb066ee00730c83df3984615852f39bc77eb92bd5c811a09acde791, 0x154ca551c461e072427f8a73d9a6185fb2f1131021cbf48f4b7f19f3b7f729d0, 0xf4e5b9a8f5967532b7db13b7f9582dc16986b87803837736a8103fef079efa23, 0x1d8b32797cb7d16310997e349ad1f7a97d628e0b02188b5583569667ab326b3a);
  (0xe2562e55d3b198e3ef63f1037c61348b42c40e1f21b203f3a426e3818644fa94, 0xe7edc34d6b9ef48c4c25f34c2a57b2fbdb167e76e391e473ff44e75762c260c8, 0xfc7c58fa961addc28717563d24b82e04ed433d6f791f108fe4a91a1fd02fd3c9, 0xee444f0fcc66a4a675e47668c8759087d7a99d5e9a7c08cab388d503940c241b, 0xc81c46d2b3d2c21f41c0fb517c0dbdd0d609831448eed787163aa54b12dc2306, -0x8f6088b3e410f68c5fd9bb3726c283491687c6d3d19628e1cf76a0707a7a6eb2);
  (0x2252f429d4029c4a45e16765b14dea4fb90825346b92a9043423a099e9f1d93d, 0xafb9b133069c555429730be9f8fb0437c5722997e8c39c35e06f4f14396adb07, 0x10f64d80db946f0a7fc5a18f8d39cb38e31b8c636b6ba2b4a53acfc038ede13e, -0xec5fe964a8735bfd0ef6a988c12da3854902450d2aff718249a62843b67f1d1, 0x49a23bc6ffc462a6c7c9bbf23dc4633d47c89bb74196062a77483c02ee1da7e, 0x78920b01e0274332b0bad800f54c7f33542f1cbd5d35c55ebd519a0bc81c0ea);
  (0xb70adb31dd7be77e821726a8c664cffde80c3420546fff30135fd8a43eff556b, 0x6383b606dc62dfc967eaf6085e03a210a91452f7ff84c177229b03d652a8d51e, 0x4cb224982f59bea89851bfbf91a1937c952db9a231443427beeed30dfb1473da, -0x1519ca1c7c0157d3ab17b7c0a3a5ec914e67ef7d311f7c581fb32755dc07d5871, 0x82e085d7263acd4d7aff7dbe6b57b992556e7b36ddfd946522fd35e96cea3503, 0x367dd1e9680c118731edb5e6ba9eba272d5b73405ea03e1c3d62e02952cdeaa5);
  (0x7310862502baf1b478ace1d3dc2f829b7921559049143abc8810b822c3260973, 0x58730f5f270ca87c2f791e44c38991bc65df9658c40a8db10338b157631c45fc, 0x8d4c67a250ada16dd3bfb24e56457aaecff13dd11c7341fde9b4e82762e0bd97, 0x9fdcc96ebd6a730ce0cf78c77f4a9539c96f51be4e31925aefd77df531f6d10, 0x33b7d9964b5f10bbda14a94b6108a03649374cd465c288a631b12ccb63c777b9, 0x4f931b411b3253c5aabd884eda2e94dbbb7e6a3876d19e7c7752b381b6d323b);
  (0x1db801d65431ec73b70b3c81d7fe4835d28296b608eacdd0ecd12e8542f0027, 0xf26678c1f722f9dcc02c469bde9cf2836571e11a04f6f9fccb6762a65ca201e8, 0xe3d92f85a64249996b8ce1f7605a3e03fde9f31c1014e81605e26138525aa3a8, -0x59a103e342b4a7eb9846ed5a01105d066f5f4fc5edf8b9bad06046c79f0a8532, 0x37334ad332fb76f60d0b1a8d1a9467626bdba1e99cf0824bcd5facdd17fbf, -0x11df3afec81d770a0a8a0c0021d94840441ed9c9746bf1eda91b6a8076d053d);
  (0xc92a6397cfc740e02898c232eadd81aac13a16790db1e7e38c91c53bc53469e9, 0x61fea98934f8e61100d381b6acb5915e75af087315cee78d367075cb0c0c987d, 0x8f738a798e2d82ff500e1032daa3d42a5633473491a6d63d06d9a3a5cd75f2e1, -0x5ecff0da23fa31cdcdb662be74d3da9b500ad457b24f76c88e683166c37ea220, 0x9e13976938d5d5fc2b2cf0ea26846024c8e669aef0bbf9a6b58c2f4484c4d42c, 0x71796ae9575567dc64cc69d04bfd9686a7b070a80d2e7073921d0676e859d646);
  (0x197507bb87eaee76c33b94b7ce541d2199ae081c53a3b08a0b8ef0037f6ec721, 0x4c5354f1e1e7ba1b12c649ad80cc7eda7f51a1d834d158db53db247f90b94a8, 0x8183044eeeef90a9142c39cc280434ab7226c2ca43e494502cf6bad5363ba90f, -0x54013419b67d962244d66034d0aeaed69f323c873e08f57028bf52d726922337, 0x2881102b231ea1fdd1c96ca62a322444d2d742a2f95ef2df29793bb9da22a91, 0x9453a6ca76c1cebb6e39f6e89ed588df319b67cab7624be0d978c28ba6bf88b);
  (0x21ab75b6cccaee67388f7e747d0e564d40bd67982c750cf4f7f07f585e0df311, 0x72709df6ab8d12bec4fbded120eee5755ee0fa98ee342394e699f5f00aac21f9, 0x6c017fa063602bd7961062160da287c97248a84cbb2a8474f32f4fb10249b320, 0xf6277947082728c1b898d620c8bf3abf90de4d4c36090af8df6c3fc9bc6c969, 0x46da72f9922824a6cc3ef962889161eb7664af2e52bf126d9290b4bfef5d398, -0xe6c8c6a27933be3741145770c033ec66e39ac85647fa5c3861d9495af5f4370);
  (0x2cd1272169720c1e819ae5b352bf34ff15c7b194636531ae3f73f7c0d8701b57, 0x894c9762afc63e53c59c7cf901af6abb776d790e4ffd7dd6d480828547128a16, 0x9c59717b1c1ae47654f6562f0f7a8c8177b8a841282490e0e0dbb02f7da2c3db, -0x73a87b58b1fe26b6bc87330ced2399d659a91848ce0494d5276e3a5c016efc9d, 0x7d8905466c892df60e409fb213a1008a47a424714202f4eec7f6b6cf9592fc7, -0x4007bf3b0ae4a12daa3bc547ac232c016524d41f31d1bbb03a6c66ca2c2520a);
  (0x5ce7e86a70c7072af7e4479f884e89b27ccc3863e312c79c0f6619e7c439f074, 0x397eb92210003c652dc0008d2fa5137aea146d06f155a2e6f8bd9307dad04be, 0x71dea760def6c3de20db969bb5ffbef09c88516ef52b87f1d3262ed364f68f2f, -0x5a530ff46e1f92922bf5df4b8b500e2a0ea82dfd4cba55c7f2d64b7b26dd71b, 0x21b78121c427ad0025360358b4a56c37b894b53fd606ec838964baff0831d71c, 0x30860d294feb36039d694d12ee477d697784bfb3824081e42320a006fb1f710a);
  (0xdee8a576a51dbadf2e2ef4d898ea6daa4f2109b874c74b2c3f63d0ac5a0d0d6e, 0xb9c269c674dd9eada421ce17d1cd777ff9d13db8e52a72724854935148621970, 0x6fb25abaec29130f01873742a627af5195455646bf4ed857eca89832c92a038b, 0xc62664066e651fd26dd51af4d41e81cfe6eb6ddd207aaf0da300c703cc814c28, 0xc2185266185cfdd2bd6873621d36bbd5b7866a63432fe84d4a67ecf352aeff28, -0x9e9e65b190929e772ca703f59c282e868bdb97b5380109f33d63d82c823316aa);
  (0x3b05b489c04c2187b4a9d7a1367e2b39fac23afaa3bd3c0836a3c6177dc45856, 0x952f5dbb44d036f19f60def64766f6041b486236705175bd485e75968b4745ec, 0x64f01bad6223ce49ff618ffcf81a0441001ca56a7cca016d7fe180bc062926dc, -0xec259face48ab1c38652e2588b8cf0c85001675b4601eae731232533bb63bd3, 0xd9ba1580b569af84da85a446c6414d5d75aff331bf989992308c439e0f66d10, 0x86eb470e2ed806bcf260b10d35118c42c2e0080872fa0e8893ec9b7d9a819df);
  (0x2b0b225eab80369ac2b1af015fb308feeadd38131df1858932b1961560e0a8b, 0xe06310b8adb6ac82d7ed2f8ae46f77977434906b4c462fcfcc7c7d598c969050, 0x6b393c442f6cfbf1b20d93215a68cc8d82d1c9943129cbe94a5a2eee7366a4c0, -0x102b16c8e10a10cb44b92022f6f9f02f8e54ebce0a44d640f98ed6ffc669870b8, 0x73cbe07c65d17ed22422a9713befa02dd929d163f834b92ae87ab52d3107f, -0xca4f461eea4cb14b3cc5885dd2dbd2c42bb71a5484740f4906846f84136498);
  (0x7ed493556a8f1396d627fe6973f99460d03b4b39175d3c741ef5d9f53cae4cec, 0x31a285e5903b08dad4d65d5380b17512cb92558e3bb270a34af3e69ea4ddd646, 0x6e326e0a604e41fbdd93ad6e158bdf2e098b85e8039f6b1bddf7ea21b844a785, -0x32da47382b7368c5901d4288755aa3c144be2caf0cadf6548bbfc6b1e18ea1e8, 0x3ed5f18c6f2889212c7f18f91ee9ecabd919e5c5dd480343d545521845b3183e, 0x5693e059bdb9fb5f392088b090a86021e110ccece9fa8c8e0d908dd29a93167d);
  (0xa341a365f2dd635e68534f13ce12049c7966cbd672fa3cb3f62e1fc38906e48f, 0x7d6259d9e3a7d969be8185d6ec0b527bd4841e324589be991ce230ab0f36e1e4, 0xe99a00e8941ced348469d9882be545a9405cb3c75c1ad50354a81b53088ed310, 0x6faddf1a3b8e1dc6c241c71fdea5ec2d7915df59099fe1a9acd58042f52c18f6, 0x681ca6e835563cd6246d01acfdb8fdea56cc7ef4d330d5d2e7ec7fb7e89f5c5f, -0x304e9002b0a7804d34d95d2f05a4942f1e61232fdb1cd00ed6520dc84a56d4d9);
  (0xc0ddacbd87b975ce779ed42524ee1d9931bf9b5ec1212b1b87b7c083db73cbd4, 0xd64a61bb86cb95298086662a26ade54c73ffd0960ba3867c0081a80d0628a16b, 0x3368a1c3f8179ace8868c14003c4a8009721c760d97ccbe2a2074636488f55d1, -0x2be1d821e4e025679f384e70f0318544025115ab71835361d9762ac50a65ee8, 0x914d430fff61c19e00034aa749e6df27188bcb99d722182c319108ee455b56a7, -0x42fb0235bfe0d299c886d1e2cd94333dcfa288a50691ad0a237c69dd70a90ce3);
  (0x76970b97d9207ace885b30126597e78de86b06ef2b83939f44f623fa37173d83, 0x458114d03107d7157af82de89133192a4a5ff2a60ee400405cdc60dcdeecdbec, 0x8cfe6e907930703b98c090640d8ca495c408121feba8b0137f9c795ef2769cfa, -0x1ea8033cf08d348ff3d718ee6218e50d243234af0b6a82bafda114d01f8fbefcb, 0x36ef97cea9d27c41ec5f9f916ec65bfabccd0a8f8dd55b0dae211a5101b54d69, 0x431236bf602f4c632edf034e5772db15868b8e0b699267c3548c19ae99413c6e);
  (0x87ad1ee68b8526ae77432367a5daedaa6a50950e6e58a95a50eb1170a87c580, 0x14de84090461b86555531d7abb52f1ef53ba185a88689260ac11c144bfc23c62, 0xd9de9efe6e790f246df55c8dd29cf798a6db0c6becca5a71cde1298f2439ad6d, 0x1bafa9d19a285215744d1e2e0c38833468df6cc1474ecebdfb3275ed2746f5e, 0x47e80ba9ee79d9147df242c9e096102fe6b0237af9a55debc7aef64fde8906, 0x19c69e13b8abc109d918626c2c3f50c869ecd8feaaf0876ba1b94bcacfc49b7);
  (0x981f3aee604bcbd7b5158a7cf47e16faf24521b7ba69fc91a1ef624738016a21, 0x244f4c9d18837192b3b344627ada08a07bc9009a2a2674007cb5f86b6b8e353a, 0xe397596bb18930e69b03b4d54a26d9f9ef8f2955cbcbe93bdccc4e704a32a47a, 0xfdd2f2e73d6ce7b2370b5001750157b5737ef1927b7a7120b09f84214e2815d2, 0x5a6519ca65a636050ecd22213deb2261fdd3498f29ceb4fb3452bfda47228a2d, -0x92cd94e23fd59d074766a5f3bb6dab84bf476cac65a7707561d23dd3ae38b71);
  (0xecad9d528192c33d844a817582166d07172809974b51248ef3b3ffe2b817b6fa, 0x6e2d283819cdf704b4fc7580d9a909eec2d9cd8ef20e131bd1ca0acd4d6906d7, 0x1061bb23e9595f9b6afab7b58bc8c8601d0f4bc42d386a59abf52e8514ad340d, 0x4efc5c71651761c4635b5d000cf3f0ab8e173e3cb92a059e4911097af0923bd2, 0xdad08fce211805da9421eff70994fdf12e9a4591cc869ccf4ffd055c196dd975, -0x444a9ec52b121e587d4d956e38a0eb7d559e257ad660f91ace986779b6101077);
  (0xd33b8637be3c994354670f7704b974108b2d048151604b5b642ec0f8bf8a52db, 0x43d76e9f44020521225377feef7cc0f3b7f8e1190a4e7014560ca90202e53b45, 0xdb8cfa197086d1834b50273f6e557cd8aaa6979e6dcbf6fdaa5fb12e8a278012, -0x7337cadf392f3d6b17f15cc807fc36e941ae01841e7db33c6dcba9da595a699b, 0xae4b2d1707a7fbde5e0524219fb938c1574d33c8d7c4d17544a5049af98d707a, 0x22ee7fecd576e34d4d92bc9a6f3b39dadc727c981885d81b63038ccee8ad81e9);
  (0xdb783adceedc155300f48ea5bd331cfb7bd8fdc5e96c6b11b3a15bdb46651f79, 0xa004783299cf8c8e865c049926d0303bfcd38b3cb69ad189c35199ab16f56afe, 0xee26c02754debd4717392d53cbc6468448bb1f2844c380d2f413db84b4c09d05, 0x2e35e6b56a601d8ee7301546ff65cb8d4f14da142eb53540dbadac62b2fa1f7b, 0xbc26ed2d3d5555b7243f8948c04630bce149f5da6eb3839872934885fa47a88a, -0x4f05d17f4857c48926476e964877350951501b56cd0be84758ee688c859b4bf8);
  (0xb67714fcead854f4d4c22727fc0287360fa00c21c22e80006f588dc5dfe27f80, 0x5e9f3c5aa41562e796041b0aa65eae3e1ecd6e9000c246e617f9e8580634dbe1, 0xd433b4aea901c8eb2453670cf82aeecd87e00776ea24023e5cc7e09e719de8e7, 0x276be55181a83c7f59901bfdee79100d99868e2c9c537860ce9c67cf5701af4c, 0x820d893c22c66c7c18bf918d8426c5aff561a611b1cd54682d24e08ad6088c4d, 0x2e9c63f6de6726c0214717e8310dc3454f8a0d95a4181882866ad8d1875fc4ac);
  (0x5273c94931f5b43b3fddca7e15a73472857088a92beba2c95364be6e8c20c74, 0x56cd0b0c8aa4efd3f47fd3fe532ca75aed859180d530921eb19b7cb58e4e0a5d, 0xd85e87959a603e13d58f91fc51278e9fdc8a39a9ebf8a53238896ad3157af402, 0x8bc3fd2cb10edae5a1299dadfcd823dd23c8eb22f8e2cf0a14e44720ef5cd5, 0x1a8e61515a084f973f0b45e28e5c914ba4a2bc029c889e5c81949a0c752466, 0x284dd5d6f6890b943a5cde616ec6e78a54022612287cf844ed75478ade5ec9);
  (0xe936539a7df5fc25c059320acf3a12c9979af7af882b889a707126ea0eace6bd, 0xce2c2e21be9970e08af3bf9b43661dd60093295d1e5510bce8f3debcc8e99ef6, 0xa559540757062a0179a1cb740c429cb37f6d5a2c515109dbad71c364d9219e63, 0x131ecb10c998dbdce0cfd8bbe2a9ad60a131870e15e2a2f262c8c163fe3e354b7, 0xd473efb699c473ac637d7f7781fdf7ecf8f463d602cdc3b8375f46a7bd46e677, -0x6cbeebfb9519a1626326f33031492e9aff1ab3a5f415d1246e04369b83c01fc6);
  (0xde0c02b305b43882a8ce56d9a304fba1a06f347de0299f1822ae51c45788bb2d, 0xad50140ae0ca70df22b26a20e1cadbb96d5cbee3cca687c14aadecbdbe79c3f4, 0x7839b8080de5ea139741d500da76657416180a278e711eb879adab33d93c2ad1, -0x493b292868704f0e756efe67c2cf2abf9a336504427a611c9ec12a8e197ec415, 0xc098d53ebeb4642fb40f4c6983dba5e2bf98a97ec94ea6f974ca5f4fc2533e49, 0x1c806949c041c1f3a3c4bd0c5e18bce4111b8e6d5cfb735df13b70f1dbdfaeba);
  (0xecd54bdd5f2d838db6dee30c756c9806bd8ecc5f5dee2bdac0cdfc84e9c0e86, 0xee0823dc2dbde0818a1013d1fda4a62499df1541a9a8288173f579637477e35, 0x81fde1c733b8515470b003b813b5fedcd18ab3be13e5502c5ede58406f465505, -0x15218d03fe730dab3b24d4c67e251cbdbd4d85e8ae69fb74271ea4451597c0e5c, 0xdb19f5977c57c17c560a3d13d23efdcbe95790f21a64538cacfd7e929023a9, 0x9292dc3118315ed8b193836a1c780a6369b89ae3acff259304b740c9e48511c);
  (0xf7060c7095b0a913f4aa3dec9d992e9575ebd4fb5e0c78bf8f4f50a739be8eb3, 0xb0d33807f4cab4a522f303720cb42ea339b840d02463a6d69cc7bca66428838, 0x3577534673bbfadc33b8c13ab08d37098a0a90fbde04018f666a3f71a486df8e, 0x671e9d9fabdceff6759b5e20822b4eb1efb9111e66093a2ef9f1e82ec0249e5a, 0xee5cac25d6bcaa185104ea99afe349a4709ef52f5c433e79d6033f5f8f4b021c, 0x3b0f81c0afeb1e9a5b416984ae9d870b3b2b7bfa68c7002b076d971ac7c3aec);
  (0x23b5c86e7068617c26aaede8689f6a954ec64583db3d7e0a74c0936453fbca38, 0xcd2505a45cf38f80a544ae674c4c257751adb5057e2f438ffe6862677bcc5123, 0x91d7562f5f94f5b480a53f046d5e8d31397c8eb80cd4f68fb5b214fbf95db29, 0xd7c25e7a7d4cf2613e950297b2523d17504ec6dcf50d75f76ec2258a38b9ca0, 0x4fb35e33bd43d89af82adba41b36c54364cc6bf15ace9a0d8f2a477e57c23e3, -0x1b131488d24b684c9ecac01680b9a9e5b8ef754e52a721a4c2e85d7e80ea3311);
  (0x33f2da73028226028897cea817c0a01fcd9abd54702d315eb8cfd6966109d46e, 0xa5e5cccec9d09ad0204eb1da3b20dc76fe561bad5c7ea65b358961eefb8fbca4, 0xaca3bf848da49840907946bd0a48d43fb61b8af5bc119d60bd2289da9eb57bef, -0x10ec8fe1bf85bfb1a8e43c428e5b950135ac98e55239a7aa9899e59b2b3c3607, 0xa8aa96b8ed8ad25c8e77d059df77570cf845024943ad1a5783d0ba6b791822b, 0x7f6d393be63e767a3e6edb4a59db6b18b64365d2aa22931d14cd07726fa73a6);
  (0xa41b8e11f15e7cd600f561c52dea0cc66e95a8b8e5b4bfb5ce5b98705e7635b6, 0x171ba68785a30662c12512fa55e71cfa139b8a28aa191aff207ea96e746d345a, 0xa1b2b3c5b63b946aeedf4d4d68c7cdef2afe8cc21c622172504112cdca8ecf0f, -0x652f2155c2af8e99ae8ad007ed6444bd690803d83e5bcd79134fc93af1d4c564, 0x693350fe43e1e2e74afba06e735004f90d04b20dfabb0c41d150112f7789b1de, 0x5b88df15d47a7855f5448d4756f8e113c14a6c666ffb6e63a9e04039b38a30c2);
  (0x85325ff9903d466da37c3113a60e1e00fe555bd782b6f2fd2ae9fcb44a4c9004, 0x26874cb38a05b45dda3afaa85f2f0787cebbea8fdfbc26a81a2bbc5c695d6ace, 0xaf7f8c29e7922f01e5c62f18a65cc3db123908944624a97ef26f8c469bddde8a, 0x3351f67f9ad3622bc708baf29e6072eafe4f7aa893d07bf59443ef89e379dee1, 0x454d61a2f1572f74d1704605c5c75aea4b90163d0f2677175286e2b7dbcae7b0, -0x805f6234def5477b6b20c680c898210998668dac8f5b95adbd112bce58617e7);
  (0xe918ab9d2c9cbcdace2f68930376c22eb8ffb01541170de1443a9c0b22ec86f2, 0xd72b239325be31e2406b8f725506138795f5a10d976facbffbbc591656973ddf, 0x79c7573b0d44666e783343e57ae54547dec857e54eae42fdb5e6309646e0a87b, 0x12e32a984984f1804cd69b3b49c71a89adfe851096ba21ceeb01c83a9e8c60b24, 0xd43deac4bbb90742d8ab29f560972e43c95c1ef569996b69c8b8340b29defc07, -0xa0d624578d7bf6c4ac048e589a83ccae6d731b184fcbb0ec0c03f33b9efcb599);
  (0x84f346c5c5f330740a3de736de5163cc8b858dec135c46172ebd15679c1170ca, 0x3a3ffd18616b83c2cc57bf91b07bef18f6c2c5f5d374b09b6b4d3dc5d4a3fc89, 0xbce1218825c7ccdfceac32214ae6319dc42a4f5b626b0040e9e8db29414c8c64, -0x3084d989c96459e32971cab45eaf3b435cc603803dbbde8aea4151cb04e3a42d, 0x450bc82b632956b0e6b37fbec2604944f594633f35e162997cab9e510211bbdc, 0x517e5e6e5a932ff066998e1c9ff9bf0f34a277e3225c03cb2dc6e7a88ad3f693);
  (0x1f920a0a5493e54f7f0aa38908d72884ee541ac299d2840ce6a42c0d22eeb0bb, 0xc0a06c5e2614c45c5b4fbafcb72816a5dbf02ef4bda20ea8713ad85c1593f532, 0xa8c5bfa442efc7ec18425969c78d761550a7943a974dc2e304fccc9427eff4f3, 0x6d2d9b1445b1f8844189ba11df57032bc7899eb68e97d72211f11095c0299eb, 0x3e4b1bdf4a9194114daffcdcc1fe02256aec432262d6b85b89880f0b876bcbb, -0x109255be191d00028298b9197ad7fc883a0860860326c140a759503f5ce6f356);
  (0x8abbb205208a2911dbbfa33e5e94aa15d430c510af215dbd2a48fcbb30143742, 0x2829c01921155d571eb1bb0a7bc6296b5e9ac0d3e5b037e00e2fe9032077ef13, 0xb7cd2246fdf6e4f14988051977b3f4330d60d5eecdc6c0a7a4884fd826741109, -0x2669cf8f2b5d4daa4367a02e282d60328b839fd77f64042417913e70eeee74d7, 0x4b2ee58b165d9f79aba6eb15945d1d94583fcfc6b6ed3d30fa239efb66f14489, 0x529fc1929c96cce2e44bdeb54963b265901694897e1b0fbcff58848b75560e9e);
  (0x867ac1edfaebffebb462b9334be3f46f9e16e4e2546670de2b6329d78273107d, 0x8f681fcde150b5b28ac4b50ca1202044bf092e9b642bbfb955dbb7e12ec35ed2, 0x95194259f850976f0b2893cb9ba755979a027090fa85b2c77e88b9be825d1beb, 0xae33cd5b2dbda41c13b6dfaca23220ccaa760e9f60786b6df717f8bceb13f9a1, 0x46a4bde28c6aea6d144a51cb4946a3eb9c3b464502b8ad49e9cc95da32bed7bf, -0x363c280838daa2b939ae260d152116121aa1ae0f2a2f9b86c618ad0e09d07579);
  (0x718af586b76e13a633189294fea60f2a1b48e1a4ab0d9646c3190f7c66e50d8f, 0x2999af665c50cbfee3847d1ee4dd7fc62813e3109525ad315954c641db4f98aa, 0x51827cd769bf144b80985deea62e40c4d987aacad58f1abc03a997f7f5340300, -0x99bad108d681cbf5a47c2398938bfaa8dd0bcfe69ac76279581a30cf9bc333d, 0x325bf82e8ea812032492071c991ee9fae4497e4202dd93598fd662dae92e81c3, 0x2d27628a6e16e973875d5277515bac84dfa7b3733976e8872d3e229c490c1123);
  (0x652448f8abd4ba18764ead490ac6b489bee735faeba7368138520e0e8452fe74, 0x7cccdf2c1e884b622a2c442424879d14c62e89342f476f18de226e37a7d5d52c, 0xe21890d1e1f8f84a4018acd0005d8b739d2a71c967c304a4617b376ae5f45980, 0x2c204e5718315ad2773a9bf7686cdaaa87e1ff5227cc985bf9d19c581818d6ec, 0x27f5a6b8d25300e0ac678e2f46cd41fb6c85f7764b5e93f707540b07056faef0, -0x20defcc2f44d6f0ba2e2b0cb11b0996564f87b836577347f714ef4bb10361118);
  (0xbd4cc188c69c6f8e5ac86965c65cf562b502dd7b98ed9b54709f92d25c690f74, 0x3fabd885ee2753a8b66053df7b74257342198ef4f5451c638be31a70f3ee308, 0x2691341c77fd6ffb784aec7317d3d671e44cca1823a5151418dd7d85f8108e6c, -0x24299b33283402527b15483a7833e8911b7712fadc9f8368a7d854f521a5c38, 0x8bfa6cc770c86e25ef135ae9d9b7e3ece37385577c4e23e1456308945c6e0a7c, 0x59575c8ed9d501881c894e64d691fb97758a50551b3906fa7ac145a1f95a0cdc);
  (0x1b35aac1ea24fec1528f0f38e1da21f3ce60f896a171eb4674fd54d4e6e072c0, 0x7b55dd3688c82485c54230b183b18200fd00285f6e7b78ad039c1ffadbc1d69, 0xfdd01a9adb3a3c1c045a43a34853304bdeaff4f62d939f919498771d92536667, 0x8034a79151c4e53057c798ed9d9b63a7cefc44b7cc1334a1d2640e119a942c0, 0x2e45d450d94deea47bee4a8d7eef91779e6fd5bc811d9c32c5ce007a47f0729, -0x657707db1bbd0b7c18576b40cb6ff8d1943f95024112ab38b79e11522bb5dd);
  (0xfe2650879006eba632896291d99138a196bd7a3b6bef34f9e85aa08cfd1e1e26, 0x37a150f37f1ea41f7cefc778d6ebf8b5f125acef9d84c806c0e268dbccbd6c01, 0x6e8fcf0459c8edcbe8f0ff084f97c7425ccf3ddc2bf00f0844f8dc1f65f37dc5, 0x713607d0b94684cb7284c63b615a5c3cc8624a446588082648d2d691a9ca8ca7, 0xfc500d8903617f794d3bd28cb7195b4e345e98c87290b232059f67b9ea16cafe, -0x2f934753098598a47e02fa13b72e58141b4cb5c956c7a0ae69df03365e06f204);
  (0x4dc90360e6a2876083f187f3ffb3feee5c347841fbef83e0cba8bad9f6523d36, 0xe0ef728e83ed5f23ea2273530482896b0563240cf2ca67e8b888428195b45b5, 0xc59e80f2af74ab78456fbd4ba072dda32b7a27cb51d883ed8549842083d0933e, 0x1eebfff81f499283ea1facd325c0d42544f62f795a218b0e18cdcde83a90b537, 0x17a289de98f35abe3dc8bafbee236c862b8e954275ddeb6759c742176b99b4e3, 0xca1a976e2d4b3be6004480c2c33fab3b1c1127dc6c3b51232702891ebed070b);
  (0x34d1dfc055ab8a6b9105c34d474a6cba02cba5965ab0e90fc30cc9e81de00b7f, 0x91d8370f487e263b8a6704f566a946087a101848e8229a1b0776324b3098004c, 0x10820fc68bef068b809be7e3cf6f12895d77c91c1d4eb0942a60a652dbf0d2f6, 0x1637eaf61a7156d8ded1ba1296698e3050afe9f602e28d4167cacb5afbb04b4d, 0xae5eef53e6a38152faf879f80e3f0c0b0073821ccdc979c74ebd6922b5c8918, -0x1b30eb7748552b85ceb6128688907c968d13e4f1e8e9880b057c94e8d488c573);
  (0xd64bedd770115aee5ba8a0577990a7dbd8b6fda15584132b6cfed17604190f26, 0xd4940ddfe3f1db6cf9f7d5c177a6a5d7c55aa4f90901710774077c8c6d44e5d7, 0x8b25077de158e8904bc44fe4e217fa3372173fda9e76619c971d88ff7d6497ae, -0xdda0b1b306d8a45a8b12619ba4dc699eca98904857f6a8e64f27f0631d0ba9d8, 0xb3630829689148ff597ae3b224c68c7ce5ff9b129bf71b31c655f1e8c3a4d9db, -0x37dcd09a5fe781a2c99367beb637adecdffcedf6ca7810a78de43d365135729a);
  (0x4b5528d391655423d32797139a862fc62f4cef428fab6c1aa29d56d218138709, 0xc2b6e8a9180170f8d964db12f2371a32e71813a2976b863214032bcaf87e6c84, 0x47a540dbf3c5b8af07829275764f7f34ca67e7519434ac4c36b18de9b751c040, -0x1abacf766b98fab8f65b9ab9149fe16322c68b4bfebc5dbf85f7d59e811da88f, 0x162b02401a32b8df876b4146572765ab521992b01bd51033428f332a3769a402, 0x541bb2dba2cb63dce337f825d005562421c35c54e436065df98113e4cf1be93);
  (0xce33c3ae098e194aaf5c5df9e30811bc0c7592e465d1c96159de36691a5a1265, 0x7f207258a0a18affe2659548300f82f199e567186c8c997b47ee7b00de6d5fa5, 0xcd1579b5a4426c24fdd40409bc1c0d01125e5b0a5f50ce47a194cfe1a2165574, -0x148e2442ec607f6fff73e0b61cc91b5351fce4ce79bd960807359fca3bf8f8550, 0xa6175963a44b1831be07fb60055a966e5605c0ad34989e1b3eb4de145e292894, 0x3670bdd7e100771434e27555bc0b810a714c40566982158e85c179cec0825369);
  (0xb27090b7629536d502acd56365f06e90c380f5d683837d9e79d8066cff72bd49, 0x4a63fe707307bacbbe25bd953cdb75203959700c2e36f1a89b7e4b79831271c3, 0x95cd92408781958596cb5376d4bdd2f5674af68a531087d97a8cf6ba0711fa0c, -0x3c08a2d8701606918657b1304ccaf8cecce1f0bc6970813af4044a72a3a1057, 0x7c60babdf75c951627154c7929a471db26144293997d6521523efcc60537adff, 0x24c238d9ed813c086f7953141c25efbe675c2b5e2f9922efd44a9f45b95d88ae);
  (0xe49527104a6dfe145a93a241555af48b13236ab5200713c20c8d9fe3df8a001c, 0xb6c9c52daaf8732ff0bff8ae00119b4c013e38cb09b41c4ef48db34bca8ccaa7, 0x3edb0526dcffc2ae43f665d285a26c82d6015d7578029486fce1defa37211892, 0xcaaad90f84c3c29ea997e53b8a71870ba3b13f8ba9ceac30c5574956cbece30b, 0xcc1a047b83808854ebd62529abda7085f3eeb6282db01a7ddc828a4f406fc18d, -0x60c9ccc7991b310ba4bf9077810784653062056818b108bd507d63ff7472a3d2);
  (0xb00df8f4a7a79067c177b99e526b8c8355c0f9587eddc597867feba3d31fed10, 0x977df541fad961acb980bd3f50f4e1065b6740635ddd4766d9429f55e569ba0f, 0x83b99df5c3024318cce2c77abfb309d8fac4fa5876148083b80b889a6d8efd59, -0x29fb2609432be64450fd1823ce0b20a104457d3133f1f78e8c17e8856bc59dca, 0x79133713a17a5c38018e9e18668257b305f96e972a4c10d8c277e423e0543fee, 0x1585d43af23abd9ec6f943eddd4d0764fa13f906da677eff823fd0f4719b4f7b);
  (0xc78535653fe1f65823a9f553e51eebc39b87a6d04a1a79df452c7739d7e50d5f, 0xd726c8eee583a4feb84ecf4fb7b2897867bedd870d2396288845b684b334133e, 0xc7ebda888cf489bc915f94692fd46cb92b7d19819bdaaf166fae9e1521a06d91, -0x3f9dd68285d1dd1a923a6daf01aa62351e17dfb597c80acb2c5b13798501f67b, 0x9b805e53efa8c24607452904309c5020629d4f5e7704dd4ce285f54d1e64fa2b, -0x319d5c88849151534ad185c0c3f1f1d346ccf0a7ef5a643f2e994a6efaa41195);
  (0x758008bf43633aa80818728d5b8d753efdbf3df67222d0b60521225b1c182353, 0x1e2f51f5bf6da655d686d6f9328a8d42ec127a995f075f50ea8a87f85ea3b33b, 0xfd7602f2ef82680c2aa07bd0313e79ac52773c748ee8353334b0581d4f2a3c1a, -0x2adf6c5f6b34937daad4aa9072bb12a59d3f5f25e8143e33eabcbd06dbb8c457, 0x35ee4807932899f412e78f8fbe52401c92d83d063fd4d1ea15cc6273dcb890a8, 0x54e59b6d48051bae4e84f7835894c7caed991a06b5af4ced921f2ec6de72eb12);
  (0xdc6ff8606a89255398986e1545a4edd87789dcdce1039891aba3144eb1638d49, 0xe33e7fb13378a6e050a8ba96b325125e31cb20342458c3bff216b9a506747f4c, 0xb16c222177b9bea044b441e7065e174b5799c50f88fc63a526ca2e52ccb1a22c, 0x1a9d32d5d497bc3f5c6e13e74c0cdfe98222056b38bd8d1fb8e97cd1f730ba547, 0xbdd0a3df0bb30dcfd8482420010a786de5c26c04c348aa42cf05b54a1fc49921, -0xa9af3c12d8015ebd0c025b1bde0cd931e17467e513d59acaf0f862ab510fe311);
  (0x7f874347ce8a359d84283f250be0351e9ca7ad7826ee6d80653a361f9b850af5, 0xb75b8dec5aaf789530791e32dd90d045119a8eeea1f46cba155b1e7152ee655, 0xfe65de0041fa94bb8e951f8a45aff0c3fafebe0f22b2ce426e3e955994650a76, -0x348e4ac7524de656096b5d3f82bbf15b511a9c9ef90de0b61bb0007317d19f30, 0x3f877c394657a137649e3a8d13f9409812ad08f4c4ad7f8e33bc02400a83f2c0, 0x6b7e9e39504137f6c01dbf8db10792e2b479a2e070cbe1370d14f359cd9f190f);
  (0x8a93f16e1b0223af79c6c8c93d88c46e1ef2c5474d0b3606026b8e157385187e, 0xe4cea826a3d8a1e8a6cd3c6a5739eb5fcd4c3e1843c6761f084b90e050dcc65, 0x66773ec95592e269992515e2a1b77f774946af7e8a165a8c2cad1de04399a913, 0x111e1e01aea47d743e180caab93c0b87e5855a29a0b5dc585cde5b43c238d9413, 0x4b03d5c9dd41d1236ab0ac6411badaae5bf04a1862e83d77fe299c87f5eb141b, -0x189a501862d9dbd5265d20718a658fb86f1f7d5e21135de5010e91fa427efe7);
  (0x2a194e5b6298a3c8bf25d226afe4d30f884fdfca9dbfbae3bee8adc5a62a530e, 0x1be44deddd63f159caa3d59faf7cfd7faf0c9b92b212f9f186d221a20cb1eb06, 0x8e23cc66857c3c2228ff35f283f77b7c528772ccd5fa0d3b35dc70210b783fed, 0x11ab3d4f79b9accc78a38e23d3be31f50e4038bdbd960ddb54b13b1ce6adf5eb, 0x6ec5036622f28421e39bbf347bd9d475f198012adc6aa8017707951ae6ab10f, -0x23c2e4150b9ae9ba60729198a42b232775401d4e35a72878083b3b0a68dea92);
  (0x9b7992df133f447f71a83861c9083a0eb4b57a6a270fa6b14c58cd1fa7552c7e, 0xee042c6b5a7eca8aca1d69cb0b98c1aba5262a4e719a623657ac5c67126fd4e6, 0x840dc55dab1c66f32603c1e400821e2c610cd8f69862f1206fe0a1b8c97f77c8, 0xa3887e52af1613c4ee69014ab0ffe1f3a111c4a983554fff937526ab41be9d20, 0x5e6c71964c720317c7e84cc54d2ea0bbe89280550ebf9194a2ed7cb9d514cf8e, -0x7f9d15536a820f6ec076222c150748075542ca2e83b316eb367e7d5d5e92351b);
  (0xc7ce009b4be5de9735a6c2b354d00fbf3c1633770b4bc3af6e0b0ffdd596b50c, 0x4a06eb369221af14f2d17be74991d27b7ae8abc534a6ac6ac8f0de321aa16527, 0xeaf46febefb31fba0c2d35906f6b329b6ae8650d1ddf1e0d475b482e82922544, -0x5abfcd468c0b6a94e198c3195331ea1b7eb911a28598729d695b31fdf0f1a8e8, 0x9bf1eab669ede4364f9fa503b3e8094853511ead21e57a853a05395ea64a6605, 0x7ffdd3ddfb2e887649c4e507d8d2f34b403e87b7b52776787b05cabb111e4198);
  (0xed31f40d405010f51da05f5989d408623cf8a2ddbb9066c25b0588084c3089e4, 0xbcd8ccc4e5e099a6be7fb72ebaed83452a8fdca1e7ec10d96eeb91e6de2fc028, 0x9c8d174887df7a903a0dde15850d1697d9dd9435d05d4ae977ce4a3522454032, 0x1732c4845b8e70de86cb5573958b888f75672128d1bebecd526a285619ead4b43, 0xdbc5879fded021548f4d62d42aa7fad36b33685557530aa52e94ce9253c53886, -0x6a62b572ec42445537668601ddc01e259187df0edfc83ceb92f473d631b141c6);
  (0xaf68fc9b7387a810f0ea288b9e98befca1411c41d6725085109c5febd77a268b, 0x19ca2a4174bbf49227f46f19b358c83b11eb606271bb41d1ae64ce8a0c4f2cd, 0xa626e8b07d355a13b3717a1ce9fadaedfa40c06ebdea61f23ef15e994d5b5acf, -0x2dfa90da14afb1e52c14c60ed65cd1b5de9dea4787128a86b7a2a16c25d9d52a, 0x7830b46abf83bfd7e46de962784c5f3ddfa5616d1146a536d31bb643e55d72d4, 0x804ae9fe75f0b9892275ab7fd93789cdf33c0993ce6d40fdf2b7f522c225ad18);
  (0x19b22b3942388afc1f32d4cc42f0adbb17b2ac973a795fdc90d4f2c232879301, 0xab505273b92c1e00b0104a765361d28274dcf8d3cb80b51c6c71385dd5bf3db1, 0xf5d0647c0d23708f2d32d46f3b454e379ab6cfde0f72e07b4b15d8a41f335856, 0x21531455bcd9b06e8a325d430ec6dd8e6db997d35a3f6b2c8111e71cc89fa34d, 0x294487151db6ad411b31b27e3181ff97585f845275e4d7c87110c999f22cd2a, -0x1108a7c2a89d4b717ece376b5007b27bd66b644cc01827ef8e8ab9054b5d5747);
  (0x99b092455957ccc10fb160e0e16a58a0602994993237e1522f93a364c45b6311, 0x634b919284195e8665e08036788fdacde7a72a487f435db1e79445345aaf8f10, 0x2acc34b723aedb521026ddb514cda930069bea87adfa5797ca5f44e35aaeff66, -0x1dc266aa24cce1afcb48196fc6b7a2bad5e49cdec2f84605e30af23f046537e5, 0x5c4488a057b8f829bc465a25d6ac0d07f246876d4a17cabc01aba236ec42cfb8, 0x2b3c83b16bf77891ab5a86dc99b299d573b0174838391a71c46386883b31051b);
  (0x1d6432c2da8f757222036a50616ea28828523cd971cfb5a82f1b2341c6a59423, 0xa0f82a212dca499f66d5b3e56ae9677b62aac2a5f3cfc8ba41c5fef365ce052a, 0xc2ac8102d1c42e61208c15ca021a704ca5f77729fc83cda33cf346881da3170, -0x69b6d63e3a104b6d19e969ffc158e66774d67cfdd654e9e148ade43d266ee1a4, 0x35fdab7d7cff25fa2c69370f4e50dffd127ff7e6ddfcac5b02ffb2ecfb393b1, -0x714b0ee6832569ce5d585c73a80e3a5148c01a472d73224b005108e77f33adc);
  (0xe531526e7bb34216ef2b640e088e2bdd2aa1a6d4e95e4be0319186b6ad7c7c2e, 0x17c5ba204be5690176ec11aafbc37360dbae5c23a9a2e821514c6aef580e59b7, 0x25b29c0b3742a8ffc4cd5b049cf2d84e624e3f525686b5a190428ad014a5bc2f, -0x231e3aaff8efad4a22df7e3400ef05f5689db4b626c391b4a9b3b24f8cb577bc, 0xcd3146fa522505c9b4d46b92450698a4a98df7b295e9a3cd61f483da5a2b8125, 0x7ad48d059814aff8aeac217a7761897bd2018e615867975f5883a2a533c131e5);
  (0x63c1573f8516f133d55f059a7c3fde79c1f0ca62d0e008ce68d6c4301a3616e7, 0x99683792a190e02404c1aa03871ca57e2f0ec511098a6b861eee64c385dbe613, 0xb4cff92ce791aaa6c349f2fc687203e18d20c0ddce3abf56c839eaf01023d638, 0x16c1b534b0d0b7424881b2c8d0fa3083716849d7e23edfb9649a610d981f34d1, 0x26df1b7fcc72a75e259c02d3bd7c8b3f4a24ff9372ee50420c832dbc5ca85810, -0x3283be322d57a8deee6efa3859c6c14cd20c2b8b74c7677556fbbf504dcc7385);
  (0xfb5edcdf4a00eeb881d382aba0801ed39b8932e106a6ee03633ae55c156e8a72, 0xea666fc3d99716053261d452ee7d4032606eda149f646908fb6ababc0c698916, 0x22b99351a672a7cb301ea8c03e9d578b3deff32bd1ca079e1dd2a3532c05c5c2, -0x1f173baa98666c1b02e1e81342ceb09c362c875a163564b05be2e28abbe5659a, 0xf6d32844cda8b6c0bb65a829c3839b52cc3a89ec518d2becb9520fab1d870c6d, -0x4f8744520127afe5a65c32e16b0f653c400f102c01da5431529e5e5c1c9d5fb0);
  (0xd5334843bd6d76c5b5a5fa6a0b22caa8d0d10fc72211528034cbb8cb1054a18f, 0xca1b8b53813477ed64e57dd25349c3ccbecdaf6404237f5c45d88d64275514ed, 0xb9820abd5e0cc594ca2f98ee09d05f58b1d8c8fbab0ce257667541d24ea46aad, -0x24a078f3c8b07327c81eecc3ba1fb24124b7c44f628e6b8e67b8f809814314c10, 0xb18e6086989bcdbc9952c4aef833ae1cf8e4456e52318e54809a2588901a4bb8, 0x1ae4c81a97aa24f7d5ea5d0986a01566d86430df8d92be3a10adeb3b56fc8608);
  (0x62c7b4b5c40013fe5aaab64168dc5b05f7f5e551ee092560d1319b6b895faef8, 0x6a413d3843e1c47fff2bd8197eab5e22092e37a6fe48575776c86298061695af, 0x670ca8f5411af81fc31421bdd9fc937c206c793e54d9e4e070f565f83519b9e5, -0x1f02593b8a4c9b2b1a0cfef1430e40fb51a35b1d7dbabf164885fe07c820f40d, 0x261d82259c36e41cad25bcbb3010957bc73623ba28a3dfb285362566ca6a93b4, 0x24fc5842b24ddfa327e86d3ee8f983214d25ea49745c2e2d131c7a5a7e68fee2);
  (0xbb3827fb22788337ae1df75820c10dba1d0a02a01923505ce4f2c300a9fd19d1, 0x23dab5c1fe9db8426551ff7cb1951e123ad82dd80460cd0a202fa39edd43f303, 0x402d76bca7abdde60641e599e8c383221cf64fce1cbd1642dc114a7101ee6b90, 0x126b6e980a306b2cbcf1b4585561259c63f01078e684ce35c35e66d8664522a9, 0x88eb16ba68799f4a15ac7649983d7969325c29c8c3ddce2bcfa83cd46f57b5c0, 0x337c565fb51c7379f04f3acd78524502f112ba5dbd5804de242155d42bc279b9);
  (0xf10134671de373ee7a98c27e438b9fdf3e2b5c4a6e06ef66193c9a3ebbdd96eb, 0xacc1770b3d8724da73c08938a001b5e0ee3096b5da8be418f99f9d9f83236735, 0xb32db0a787a423c6b0c4d4cf46677dea6caad39ecb29d0e515642d9ed71e1daf, 0x50dbc0da71cce7580ced838675e5682627c8973aad884bc0ea997fddd764cd91, 0xe2e344ab99ce89bb624e1172cb4d5e6b9acfead385733af9598ada5af1e91d67, -0x80e1e0e2b99969e62d262efaa48aa14b48584bfc84c42ae6362e645c0fc100eb);
  (0x66db9e23da9f2357bf6318722ea787cd09ff5ee3c6f23f7c86d0b1ee34bc9187, 0x97ff76bca3fdcc64a45860f7f812499f910ad4599e03a2d8f1b8d82dcbde852a, 0x5b1b9b544b645771dcc1ee52edc2ba20c09dbe0601b5765255312ed08e44f721, -0xcdc1c8331da4eb49f88870284c900e98e7ec1adcfc9e9923c6f2418db827dbf7, 0x2953be6c853f2352567bd061d5a492ccdca0f7898831edbbb10f579b7f524ff3, 0x8571ae838dabade22d9aed44404f2eec696fe8eb8656fff4988271163706593);
  (0xdce4d2903d8debee56cdd66905fa952c5ddb8bd2418c6bcda1dc9c6a473602b0, 0x90a575360eb23ed2760370699ca0c76e6a2889a7994eecde179974f6dfccd8b7, 0xb823a8d433100d07ebfe0aeb334cdbf8703ded02f52781f1ece7f7486ceef327, -0x1a1af4c9e051eea6a2454b524c28a5c1ee53f5148f26730bdaaeaed430f268b9, 0xbe9a166fa7ea88900b45cad31c0802e37755923882c2e368f44d600529a9a029, 0x657eb84fdcfacd60ae925def885a8dfd92e27c3f421c09678bd7e600f4507b8);
  (0xdbd551b4f4b064658c6ae01f2bc16c90bd7b4bb15f3911fa975d488a3d23946c, 0x2ff4135aa14f0fc1c3e6f131b51d9f64738185a05ffcbbfaf0838fdea21b83a3, 0x50cf607679ac18fbb146e6b48021bdde13e46d0690e37e10f7f2698199fc3172, 0x4710375589d215232656b124eee3115ee36d68da2a3288f4f128ea223834e89b, 0xbcc6ab8cabd8fc0d70b0afe32786f14f6a77ab9132e774c50cdb44c5d3fa44b1, 0x530851299b40c9d2cd40619998ebe7360d2784d6ca382c0f1fa69bbb058634d9);
  (0x78cc8ecab967d37cd6b2da4cb5e9a0ab77b3c178f3e8e2de8ef8578a28f6564f, 0x71508d7904dab129aea362ddbd898a550ba3e727a75c2d9cc77766547331bc38, 0x370e543297103e0433cc54edf37d2afaf5b4f423b0780a02c19a6515ef82d756, 0x22d1cd5bf3ade0b9de68bcc81180f07bb01a62b74a6ae8c59d07e471da7773bb, 0x39006951f08e59f664fd52ab5cb4d81122428f9512df4d56cb0fe5c19e64f872, -0x1ed793649cec549384f9835bf620f9a656db5626ec71a02e5093ee804b27afad);
  (0xfd07cbc6b6fac24360269e3fb3ac3d310bb1e63da2474e7069b50aa45294a806, 0x27f95ed478641cac695798dfcdb9ee84dfe86b5f4d02ac6f1d38e137d5466573, 0x9d8b3b75cf8819978a90a5a7ac4b5b21479123f02087baf9e51ae5ef9ee21aa5, -0x29a2f5dde48ed25bd6737a1868fb5fc042729e67e729875f2a7a94c13d6598c8, 0xfa1869038cbe66210a807374570cf9c10956e6d02145168926b96103d7f51c8f, 0x487d64dbf52768986fa21d2e8eb6545672c0db26f95789c42ed2ff074d1323cd);
  (0x9e939eadd68cea5832b8b6b77cb2a2b527b141985d88d766fb17875e3e8a2080, 0x8a028cca08823f05130cef5a0d9d12e1b125c1c3f409b6bb948c3e935289c823, 0x710b02fea39da6e8b98b563005d6c13be81658d63515bf0e7e3f9f761df10bd1, 0x32a6c18dc439eb8a2fd89c60e6ed279a1168fceaf2e170cc54175cce3fc0e223, 0x623a8cfe32d561fb9f6fc0d97fa0ce88b78eae8bd2a04e3dcf406aeb94e183ce, -0x3cba32672faf9b940292180a7c49c54ba32d1a93f8aaa72e7411496520115d6a);
  (0x8cfe79c35d9c37ade49de818e690ea5a4e91ab2da9c49d78caf19deb13b78d0c, 0x855f4b1abc0d138594a39c3fb66829ecd53c568244c3d4dd6a920fb9a6beec55, 0x39328374292e54db5fab542017bd0055cfbb2301b30ee20f8e4fd1ddf9f6178f, -0x62af76c78ebe1b6c041f9783bee2cf9143799a9afe12762a717e6716ffe033ad, 0x4da7522387fae27a19f874039bb4b137a89ff693016717acafcdfcceca6e4d1b, 0x28de41bbdd6f7106f9de2bb6815dc47a0b8245299e88512d4ab93406bed6a38);
  (0xe80835b2aa686d157f2a33e26e0acea88149acfcb2a29aecc27a12cf23766fad, 0x218aba23672416ba6df934e22a5948d4568907b3952982d4236cf8309e1e72c1, 0xad2f1e0b09568da166d13de43bc0092bea462c43fb80fa5d07e528115d1b88f6, -0xa8a2ea4b9caaac1713cc00ed7924b0a1ad5a4d44f8531fe53897f9b51ae07be, 0xd24ee1973b4b637e6fa5e4b3529d0efac3dcc48bd006346673d063d73e99f9b5, 0x5a7bd6f55af1ae164e56ca3f11d68492ddce14e1ad156a87eebf78c2540528b1);
  (0x86e69eca4123bd8ed48c0fc92b0ee76ab6b5c7918e97587652c8622fdb04255b, 0x76234d4fdf530854bd37e97791e950bfa338375db5a14ab225adbcf832f10e40, 0x1dfffc8030aee0a6e10bda5476713a5cd5b126ac95f6a577b1bbfcf152e56921, 0xa9562d7656e0ceba8da63b448e002ef4440c9a60fe4ba326ba86c6cb42bade6f, 0x47163dfd721cbedd1e1f2b37306ba781a83bb49d668cd03480f52d0c47274619, -0x2c941296819cacc5e5645938f07e251f3fe755791e2e11fd53988e4828d96584);
  (0x34ff9095a7ac1a5ff9e3c459a0a8f8c5584d8c312060232c08f8daaddb0a8e3, 0xc816d3f037568d2e064e5f1fbee9cb74502850462153ff6237d6281a3d97de92, 0x3101c588668ea0ad9b088890137ab130386c39949d34ea722019bbb14931bb7c, 0xbf1aa5011c28f116d48adae300861832918ed764a6222966e195d6eb1785f, 0xaf8d1de27eaa7b1c28d067b5f90b1bd587c29e4c16b8dec7c22ad3b773651, -0x10f747348fbce4352e3e5d0f0755748ea40cff40ef89a1af151e309b896a41d);
  (0xd9b4f2cfff8d2a8578266507be4f45f9502a09fb7d44db29a657839714796ade, 0x3f9b16385d48e4e4503fa4d208d4651880ed0fe812814b0a6e4eae57527cf721, 0xea11cea9324cef2c3815d9d0b2d483e9c750dbf08ddba4933149043dbd8f3d85, -0x181d0bf3b57cae7152f953dc976e7714383c77f9e89eb4ef871574cf26dcd0a04, 0xb924438afa0a98c03b2bb0d3dc12f30216179e7a6f230101b0050a06239d44f1, 0x74115c461abf9dd81f362795eddb55e46d85d654cabe8457ed1e42be5ecc2a93);
  (0x60e22764990a0b794c7d1de3b54202824dfa35a9f84aa8477041e667d4182514, 0xdb009a8eca6a87bcd54ac948f0b59e1ba6a4519da47f807c1b3ee79f09467453, 0x154bb22eba904ed61846edd49a17d8d0a67088025e66b75f8e544f3b5ae20048, 0x16009a3992d52b74b4eabe9ff2551939d0cbf1cc4fbb64513ba1b3aade97b937, 0x24aa655506758c80365dd1815243731a8b086977c1a26b99b8a5edb220522cbc, -0x3acf5928c4ef962b86aef1893d55e84bbd802ed4a5b5af957e1c36d1be53555b);
  (0x47f6f2f5e6c3aa727042bc51c1d8cde6b9da044815ca4441951e73f796463a37, 0x591b3dc93135181fc72540c7b428a984b1dc948be0bf6e9f47682acb6c69f08b, 0x30bfa451e0a2fa1b97376f4e47b55fbfede68c16eb37b5237795711d4077b8d3, -0x2261506959f748d2a1c0cc5fe8417da451ce801c4fc395ec00b00cbd1fc55e925, 0x143ae8fc3d2ddd147efd8bd30ff8f62b3c6c17162a5316b187c4b37241490360, 0x2483ea698aaaf8c9865cbc98283ad95a9ab4ff92efd78b6d2a472322a1560eb3);
  (0xe463b1f3be7bcf0121351bfc988da8ee9a3c81359a1d2f522819a1e5548a2a29, 0xe815ae6dc02788d52bfd964ff91fd3ef5fe2a3d740f78b0a81a8578c1ea4d019, 0xd7180d288ed83aa078053c4cc97752938cf10752b42c2da2be9258723d6bc453, 0x1d1e060a87501bc65a82f823857950b069cb1bdaca26a88e946d0d9368c06fd0, 0xcbc1bbcd4984d1f67f0cd824506451402cf809006704c096b1822134813e54bb, -0x7f8eba8f68f0ecb7d7c9231c23cb3d05af5980f6c5506b92a2ec77f75147ea5c);
  (0xade49f68d6fd6e487cf915068fbc4ec88a0ad4d0563220ac502786e1aeb704fc, 0x69eea0277deb863fcd939ef50af8ee090149d5ced6f840c4a42cd7e05066b075, 0xac5abd011187b4f055843915db861dd8de66f4582d581c683a71af2748f0acfc, -0x152ff3976b4efd49f03719e0c2cd970ba7799b8c69113e1545b20488495305105, 0x761ecba00894e0789b7b977fa02d992f311c49303548b6d2c7c141101c0057e7, 0x55b10dfc1d0283bfc35301ce1a785a1dafd717ff56cb0e00ade9a5a9679e20af);
  (0xeda39ec07448eb34008e524710aa5e618665d873d8511ea74c867aa4b3dfcb80, 0x25cb1d0ca4c4a07ea23301094c15b5578a4ccabab9428a0190d86b4e7411aece, 0xbefa58707a37402aa4289a495557302049af3dfe8c7d5ce60953f991c4882090, 0xead75b866df9ffcb003098711a2d6b8f956de260ae1ba55b6f5818c27403c7c, 0xdc985c83e2d5389271c76231243f9d14430ba69bda6cb80fd27669b80bf8d6eb, 0x3f406d3d79a1aca078c975cdf0b7ca0c663fba072a999367b96db2c251097b4c);
  (0x354a8d416df2b76ea671bd2d2a75307b9f9fa39d760f7fbd7f5e8ddf395a08b7, 0xf3b2dbe23a809ff0f1526be5653d6c0331bb49c7add3f48e60da6fb63a1f418a, 0xa6b8f92f2147e311179baf8b534be991f28be976e53130083c8bdc4a0478d502, 0x3ec5dd74e14b9e010651dae3cd6121ed9701b3668aaf27e3db7395eeb8e2fbac, 0xb17f4330f4b341c3f6cf1f36c35cf74107418e2cba088744a32b9f639419545, -0x2adcf11ca61f30cb1161384be0f101d8ecbc152cd12f69006ce9878a850c79ea);
  (0xed5224bd4a473b716dcdfa4d54fa885a648f186aeccf5eb66f961506c33e2f78, 0x274a5a67e77ea9e83b65e6e2e1e012001c96119efca3237f2ac4f2852963e25d, 0x2fecbc968f8708138e151b48834a32cae0567fe0f9060f4b6c14dd92b4ec4a25, -0x710e727b0a01a73d06b21251ec67be026cd9cef896deaf3b6a0ab8206adfb3ba, 0xdc0132620a11428ce56ca7f5339f1ee144b5c4bf6c5ee90773bf769687a29a0f, 0xbd7e56ad8eb348425ad3005feb5786fa1cac02f7c53120814442becc1da62cdf);
  (0xade8d83bbae2c4b420a9ce77a4eafde582547186f02ced7e69c4f2b9dce10d82, 0x33ce8bc8e8f68a5ff13f50400592a23da6825ba75fe8c2dcdc1920b1102fe403, 0x51ce4b4f8194be188bbb60dc0a96a3bba7c4a40c0ff5fc1ee165b2f3bdcf2c65, 0x2f05ed83049f9d205c6938fbb5394357471d7f492f8be410ca5636ba32a47a17, 0x762488095d7e122e5385a5af2d14531f50e7c7186b40a35c7854d3c029740269, -0x880b7bdc32bb41ee574ac0aadf6041ea3abd141853ab112869d8e295520ef0a);
  (0x2a761a7dc5e8a55deabce2d7b0c20d12518c1d2f9114ed21f163e41cff7d39e9, 0x5562b9372c12373f55c5192d8df2c786f0e08984650f8d0e67153bc3024cf50f, 0x3137d0e1476dfba0c388c117dde2fae41283cdaff36658fcf1d1d088d64cd02c, 0xb999dad6716f8a873511fdc129b5a4f7ae990e9d6933e0c7346d56204f2d8d6, 0x70af72db3a092b96362d3e42fb2543f15ad5fa955b33d0d5515148d79f10449, -0x591cd3a93c265b5c20049704ced1a804af17ec6a7d853b1ad12f846abf89b13);
  (0xd5d7222416c8d775e5be42e1edfca5f4450acba72abec0b9a8e3fb4fb3638fc8, 0x26369577b83bae1de163a7e6fa0d8d5a094660500808ec9ac2208473f59be060, 0xaaa5fb8bdcca170e5742c1a384b72c2d16e7190fecdd9080571642baeb1beeab, -0x33684ba775378e84a75f5d3910534a4ea8b65ccba6eb47a1fd6c7b87141ce8d, 0xb29fb39a6b161707dc158da915d5e841fead56ab46e32aa15d4053f5c0013fde, 0x27675e1ad4530ad6f65e267c18026187c445e598b1eb5d0a451f3f19088835ef);
  (0x8b6a8d24ccb7d31a2286e7136b78a4b2223ea105aa37c76335a599cd42d08139, 0x2acc3964b33341729c6aa479a413ca9daaf887046cd155947b1056d243348b3c, 0xd8052a4e125a30d501e7d3b3754e071e3dbae2c5ba79dea4329d6e9cca7099be, 0x2d7d82c94daa38c0920afd92e762b33bbc2c6c75e57d04077479ce580ccdb785, 0x4bece19f269ab645e916bc79e7bed955ae13e716113b8a16311c6787ae6cfc13, -0x27f287ea06374707dea927f66a61af3f3ccb8fec5185c0a06da79f6fe4ec4ab);
  (0x6fb28815a0ecc97bf4a050d191cffbd517fb249ef252208a553ff491df4873ca, 0x65cbf4be9a7535d63bca6f1bfac55dc18b3e621c347cc4036b1fe40cdffc14b1, 0x7a70ee4f059eaa5f81ad36ef815a47bccb61a914e30f7a7923d7ce473dab8f3d, 0xa70ad646d56472caabd4bedf5c0df6757039910752ad20b9087fa6de20aa36d8, 0x30bc4e8447f81cd11098ce25a4f45daf9a346e838ce63bf23f44ea92fa45cdb5, -0x19be07691760ed56646107a5b388cd5abaf2e1d635366625f28a5bd82eea3243);
  (0xca42f919f1df91da1a791fe4b2cd9c6746ab246901643f22a4e0b23baaf9dd52, 0xdc13f958aaf4f3cdd8f8711ab95bf79f0bd6c041bfaf2e1e3d8a85bb04c64b09, 0xfb4a9e16d4d266063e42d81a4cbb3887f24ce6177cddcd14ab3cfc7f2d06694b, 0xfc285abf50a2984f5353ff9063ea7e2a71850ae6271fc9b32a53d0280bf24ed, 0x9fcdc2a255790499722844be3ab6c436ff6ed3e1356afcf37bbb3777b47b61ae, -0x5d73c54aca007260d4034f64d258cb5984a04f51cd559b1af94235078f4fecc8);
  (0xdc8ccc03200a59d75dabc5dc646054194dfa1fb9262aefbee3773e8f066b4080, 0x66ba3e281e23cfd6626890c434da2b7d857a5b7376d20a3c7e78932d8d794237, 0x3c2fadbc4aff6cb8d255ddeeccf2e62176ba046351359ca2b8934e0d1373ea65, -0x869a5884de3685180d711ffe8b9e8de1932065cb3fdc3dc446d5f739209c2b7d, 0xbe024c152511d0d6affd9f2a26b6f43dd0ad4083ea8fde66f5da1e6b9de642f9, 0x6519a77507789526f1352be32409e8e5aead0955bd3e53c338a8f770d3a5dbb0);
  (0x71bd58e350d2b45c8397e102c7bd224d01f57ed1d0d4d2fe28dd1757897fcc40, 0x57ade6d8f5ac0a9cb94ef7b7c89ce5b7370dd981f6d50e892d59a81a07826dba, 0xc8603a2c5f4d342e4b555cce28f9201e5424446029635e418a9c6495e3004890, 0x872e67a6fab6b95fae6e00daefb2cc4177a5c7d33a875ce25dd82c155dd58a3, 0x3288b4850bdc6bc147f63796b593e618350fb95ebbf011abe353528218dc7e39, 0x6af93e001029d979659bfadcc173274dd4eccebcbd72848dc24673c73f062a5);
  (0x7cf785896872de292ef8d04c9a4bd6752b0283b334aeeed0926d62c60f84c63b, 0x7c732b6eab4541aeef10a32aff3c558e8bbf122ae2e0a65cc194a130fce77ac5, 0xa80718a9c4be0f9a1bc26c3d03634a58854a9b256f73dbfd7c15232f5ad35ec2, 0x6989b7fa7bc06fa280981919e3d87b2c06169946b8dfce96f283ee1b2733dd4c, 0x3d00b8b011fee528e95fc8db0bad3358a8f1b1275147527eea5432e90c9b02a0, -0x11f31abbe99c8c961578b6fc1cb1c8a3e4b520a7d1a46f44785439eee2917515);
  (0x7a305781e019ba6b148ba056630113ef1830fdaa5d0ba86fc05caa250a5dd834, 0x5eff16779a84a86ce10e6786b029ca14888d45ab58af46311a33b0b8669cd0d0, 0x3e282cbb88fd72cf1e577d536e2a9f8d47004ac84b61c0807ee873328a11db16, -0x14aa8abf5e0377ab852860fae2141fb8eedc748254db025664a965b22097606, 0x3a521c88b8361789128c79e16712984370d743eed2f5c78b7c805e1707c2b70d, 0xe0ee1d310b5fc780018ee592e648bada53fdcff60d87ae3dbe6566cc2f663d4);
  (0x5cb0c9f432b28592337cb60e8fd2e4433de1e82146b736c25e8507e2c732f8b2, 0x20c9dd1f055a3072008d8a13d98f88cc2de278260cc73b73cbac32a420c3897, 0x14c3b334b58260259770dd24f7bc61fa77c66ca92433e7c3ab711ed27ae67fa0, -0x3cbe3e92d5636763df8da67c026387c08729e98433c98bb49512088bdbc0b418, 0x218f8b3dd3876605c220da8be820cd2ebb9846995a064428736e428eadc90303, 0x21a75361854b2370b376b5f042e195aa61bdd2739afc963ff71481e2ed4282d4);
  (0x59b7f9fa755e393a86f41d14fe1f4355255e0c02aa59eecbe0f8d5cb2bbce45c, 0xb2f16665122b6d52439d3ad8505e35810e05da5a334b3142cc4e207da002a963, 0x166f3c205aae7e1762d3a353f6243dbdcd5c04f154a50efbc5eed457b0dda2d3, 0x29f2d3bba2b05d247a952f08f6fc5cd87565111453febe512972ef1fbb9a9bfc, 0x1f7170077dc87ddb40ad910e35320c314c2a2634bb7f77da298d26b0a3fe7ae2, -0x3dfeaa021f8d29f7fddb6d2aeccc00c3ff797c80d3ab509c6cafa7dc0e4610ad);
  (0xcc1308f867f37f966586c3aed97b75f5e0a4207c34ac1b6244031de9dc378b3c, 0x71e59acec86ba47acd578f3feb417ba2537940f6d9fdc8f852aea734004b1825, 0xa563b178333611a579d0230802cdf99d4a896df8fa051c343db9a45fffe671ee, -0x15379242a86bda163099f762e3e9a9c8d4379f801431e2056d8bc1b3511bd937d, 0xa2ae57b63adbf9056c184be354b4dd15806379e6d5e87af325da32ce221074eb, 0x33da3c635b1fd6b3d257810ce2f8bf4b9d072a59ef3d2e1d7c779d1a3d9a37e9);
  (0x8dce13d16b53f0ed2e56d71d776aee9f30a72d0bbeab3ff635acd0f51d1fef11, 0xdc9b3642ec8c0505a04954428018023a936bc90ffcb32f086c19444f9b933f7f, 0xa8325164745dcb9147d16f5222c52f44442e66593df3fe0e7cd345c880641449, 0x458b93f7569a119e6d80e681d40abe95b29c1369622fd3c647b634c83ccf977, 0x4e8ca7b896cbf3bbe4941bcb97f7cf8e074367dced5d9126e2aac2dc1b454c2b, -0x3b1bed04d4e555021c6de6e622220591b5340ece6453f32cc5f6dcaa1423f89f);
  (0x28cd61f487b08fe5c086fcd582f7ef4d038b3b1eac5dc027ce3ea940a702f395, 0x52d44ccb34ad407b267feb1acca7e920dde4fd4c0b49f6b0336cf495ed43ea3c, 0x4f91d250ab8a78c72ffd152fb85bcb620ec6ab92ac036824ef363ef4f9d0ccf1, -0x204b3cf5c222c2ccca09a6bfc26f4527c0c8c18718f63ecb7450e22daa8671147, 0x680d3627183b624ffaaa29b71a693ac84e2eafc076d3b40b249692b053fc1b1, 0x15f59d7ba2acda3015f23abc92807239825b3d79fc73294465c3b8263c9e6a4b);
  (0x19a1b2ea3e2f9d1b03efa572c8bfd71d2e19827d8139cbcf71d8e330fc463a08, 0x4f4c2361653dcc780421dc3cf5dab322e6f4d267bcdeb634271576a4f0af26c, 0x9be924e2084b5cc9f3d49d43f4862254e2f9b48fb020112705a3430725868eed, 0x3e570ef199f126777677242afc564b8ece4602db97e884e4d2b43a3aa4b8337, 0x290fb1447d21962d75fa18f2001ba222a7c9e523283dc683f7fb9a15e031400, 0x7cc048b6759cbc102bd704485081b6b6e5e5b2cf07c1542e4d2dc5e230c74fe);
  (0xf488531013396f122c6380fa9bcf529a4a1a8030f0ee0fd7f086881f3b47296c, 0x7a34c874a35627d0034ef01b41a46770fd4aaa58df552e00368b94ca8c68ae6f, 0xa0934bc052d08948ccf81d2b410d53c5f74e95ab09eab18158e1f96f4d6bff39, 0x12990caf561089b14e0ee92a450160b0833f494ee0c8b781987c9f2094602f138, 0xe99426ef00ad563a4e9216042e3aaf56fcef99d07c933e29a395dd808a734307, -0x6fff76020e75d2f3a5d4fed6a51fbe287804c2d328df547c80e72f5ad8a5bfb6);
  (0xc85eaf6bfea3313244ba71523b1bb1e4897b08dd97961a63439b7ada636f1583, 0xd7f59f5c424f08acea1258c2c77cb16a4481fa2fafb95282f8e97bafd298d0cc, 0x5d661910b8cc4edce0598ddc92f8470cd59430f3681de54249d1928b8cd5c70a, -0x5ca8510382b84249070c8f90dcd80ae7a2ac5949f551a228cfbcfec02e6abc, 0x9cd4151e0962d068a343e19f7f619c52c7adea382a5eb97682182dea0c2dbdaa, -0x496154f23d021091b04f5a864658ab3aef520a9511e4f218eb54c17a729d7846);
  (0x6fdf88045c35210fba115a99e7e1f0c22168bbd4e3696a2a7b1c88453ed23522, 0x703272679fa450e28ca078f59dfc149645e5017b82052e381c5935a0f5dc4899, 0x91878c7de2ce20ca09ce900c36dea2cc4821e303e79f5698b5e8bb0933f506a9, -0x1d0e9d32a4f0462c6dd32db14c548c8f0fe75bd070cb52e2f20aefc358e210178, 0x30e39b2207d35946b2c12fc7928ad8d70b12be299f58bd288ae2f1d7716ff31d, 0x2d583aa3aff00f9ad5db3114e76df0271daa4476b8daf0f54cdf7b1155c4b55d);
  (0x88b56f437405dd5c8a57c4f2e77b944b210995e5c13adc843e442b389724f6b9, 0xfb521344069816dd0889535e1b5afa68ee0a05d6666e0ed7af394b0bdd07310f, 0xf82a308deca8a6ff0e340e3492bb53b10cfb8ddee65bb3e8516954b3765067a9, 0x5191dc62f3b677165076e453f30cbf501f68c1855166a88dd8d08f375492b48, 0x490146ce3103dbe05d7650855e90386af1c866b2a51f2d6e5fb25a785b47055f, -0x4a4b6749319a7aa94bf107fed5efbf1312c901fde16801315ac134c8f9a5cbe8);
  (0x850f025e53a726ece94569ab7f3110ef61eebe11db48605146ce512f7b9cc1d6, 0x96ef4dadddd78e5959f19f39e1bd036157dc41f5065028eb3f28c3bf43e5ed0e, 0xef21a590f956de4233ef347456a2fd27dbe98ab5d176042badc0c62459009fb0, -0x1e235344a876a9cc23be60c1250dca2ca9635b72a8351b5bfbb2f836ae25edc99, 0x4528995749ff1818e0d78ff06728b6db7e3ea6ed2f25a4c533cb89432383e5c8, 0x342d335e5995b56b0535c36c3fe360c0ba3920720b2aa45ef929713711811513);
  (0x9780d7cb0408d9bf2c9b149e3506e18ff42307ceb5d19b896238c9c6a7fbaf6f, 0x430b6ed2e9778b86f18a065d81137a1aa1813969d9412923821dd6a8267140d8, 0x4a76cbdca9661e0ca723a0697e23c874c43be6e60fc08f83880dbfe92e41307d, -0x1146896b7850694c0872ce44a2c5f880adab731a516ad05175beb5956ed8bf6e, 0x59a93f69ffad1b7f89a446a0c9e4dfabc56d2b196ea1575fde0118dc9b6f35cd, 0x31a5a1197acce27d1f7c3f1282f68305839c09a43feb2e52626d62b5dd649e53);
  (0x50c599c6c7eed04de4557b70629938a5efe449553afd480ac0f9ae995d344f65, 0xd2f44d19cf5e788622d1861c38d2faef61cbfc17abffa07ef63ef63982b43a52, 0x5a915ec07af1dc772403c1980cec615e91b55912bb7e111d85341cf20f7fbe2d, -0x5afc1da05ae7058efe4bd03cceab05c0559f18000e0bfdbeb251580e0ce2a42, 0x197c18a245442d129d2352c2adaeea84ddf8a9d31654ae0e95ba0bcaf69662d9, -0x2d67da1b1fbfa361b4a73e7b3dcea4dcd6d5db633dada54b261feadb5fd26bf4);
  (0x9ebf94382972af6bff3a9a57e24b68bcc508cedad241509f342b151e7db2f71b, 0x2daa8c06c7257356ba77c848908be4e869cf10eb8b28d216973c926cd23642e8, 0xdd6b6ee7528b3523b0f7324cf17ec8aae541139549b41135e55635722080ff94, -0x3752073158d8ecb900f4d83f3101b2e3895736a80bc4753c945cf43de7f42527, 0x62710a53d4c865e9d5eabde382b6d00c9435a5588e40705d3d87014a0beb83a9, 0x667f36e3b2ca6cb010a3974b192c40e8bcd957c3302b1d1190b8fc8153a6ba23);
  (0xba29075feeb1944a203f9f27aaec6440ce8936542cda770d1ac48849547da262, 0x8fbd4130dc2289716961673c3f3c1a7791ea4d2dd42f183e504bd58a13b63684, 0xbf75e5f494f48ce84a3ee369d7f0f589369609c894f375c780d9388b71285334, 0x12996e1c985ed6a71f396efe9dc5c68ad773839cbd5022f36c8d18dd9be774e70, 0x875fa54ac3cae35df3118f56415d3ad821573bbf6c5fe4ced1e6050519ca65d0, -0x47514f72da540bf43afce5a4efd21eed8f4060cd7750c1bb42970acb95f1db80);
  (0x3d1cfb1c8ece579815a1bcf52cba51fe6d41c997cff3edef46f3b1a0ce8e2d19, 0xa59c96ebe637b30d81993ce256e2bcd5f76fbd08b01fcec62609872770632bcf, 0xc1cf6659d1d5139cf6f42aa13987b0fb8e7cec538d3df7c91e2420b6754c1713, -0x540378fa2f0cde2fbccca6be66f0dcf1b18951ddc3d9f0d72971e8a01a6b270, 0xe96d2f3809e9619d024c29bdf97a6260dc9bfeac2de7df6631232a8fba0765a, -0x538b14f5b8b6b5339a5020ecd1b81c1a01d2775ab10b39d2d4eace840420386);
  (0x24af2cf595bb5989820036d1cf891744291d712a3b49a2bab3287a5931cdc57, 0x40707f4904e3e8af195490cce709fe8636a326f2dbe90d0cbc52bc70a2c6e216, 0x3dad2073e660ba8acfb14a553e22535b29f4da2fe119e43d0f54006be438a26a, -0x13df0f5d6784df8889c8acda8793224f99d655dbe750e9b7c7e58d9533f377b17, 0x541bc8391c4be636d8410eedc026b48359e02955487f11455186ebb8599b3, 0xe7f6e3bb27722b2667cf293a8f399ef4898c0d06b0d430a6fb12ffd823533e);
  (0x44565f3dd57f21a2781d6b23391b8fbcef09d46ca234cf171d9dc7248d06418f, 0x852c3bd77d6641016b3014a298f65ab0f44d8a192c404bc49250756cf08b5426, 0xc5e70b07eba23c4e04603dc57596657f0df3f6b0845e8ea2c05dc35b09c4554b, 0xf4c06e7c159c7f2dc4192cfbd5dbf04717118ca391bafc68186bb8cbac81db0, 0x123dffbcfa65eeacb491be5c8509a1995aef589083084b39ea6122f2ab1aac83, -0x12590eb974e63df78689390374884d7479e20b68872cc8ac7da2f4350bdc596b);
  (0x15d30e1cde739d10772cc7d6bbc109f5a3e23e6a66fd3a77e98839167464fea3, 0x97de6003a550284732d1c7fa7db3083ba4245faad278cec04faea50454211e63, 0xe250f63a1b3f2710a409af09a04f8c8207c3ab50e81c3cd62f25c1eb8d86d3f5, -0xae16c0fa35af61467b260eea7e367baefd8a01912639f2b9d4e643357eeebab6, 0x1dc4e5100dcd5efac76addcaa484f6ae9e0d44f1a40546f3b8c0d9cbff39406, -0x19806d3496061a27e971a6ef481f4ec4810b8de29bd23166d1f9c3986170499);
  (0x70f9f0dccfa3e73c342b7584f48bfe7576b17844686138033787e8a7e6462e86, 0x79f7e0385028e6bf374075d4e15db6653585ab3e7f333365c106b4e510373068, 0xddefde6f36f57e13ce9427c029f512654edfd8bbc301d8a46771182566280b0d, -0x4687807cd938e397e6846479b3fde1acbe83eb648d749a5baa199ee865bf84d1, 0x31dba6c7a5da1af55c744d8dbd8fe9ba2df64d768d4454296d5c2227eb6be2ea, 0xd32093d242bf887043f59de7c7a21d7a440985c996cd1a97e64b48ee60101a0);
  (0x50d5089b5a74ed3712292c35b44e806bb3cc8e35d3490c682bc028992692b755, 0xf111eed24d3c12eaa38296e9507f3f8e12bb9f302b7ef030b6f4ad3362f9298c, 0x9954cf96a7a88032d456fa19c483c0e2464c6dd57cd82418889420eae011b3e9, -0x1225de20db67caf10e1cdaffbc57d21e47efe2a0a362209ee7a52d70494f35, 0x1985d6a86b57aec3215f122a412a6b1120f8222279f17cb451e515dcbeabdde3, -0x259b413f5c86c533a542f0648dcbd1438db613ea390ced31e60b3d5e71c29e36);
  (0x798ae92376ef80df046f55128ac898e9dd2bbcd8795657eb9ce04d680efd3ecc, 0x80ab9a1e2ef650f673a1b6e7cd801e33c7e9980a09de97e7bbd9dd4fc67e97dc, 0xd40804ffd4b63f60e597f097cc8205a34d672a9194dcd7b9c3384f232c6fed90, -0x2176fbbc98dfb148d1aaedc52d082000d37cdb8988793fbc9062f813a4622c128, 0x39b49bc3b4fc357377f6e46097dcf58b0815cbe749719ede07c6955e7178bf24, 0x355d5b8f80b5219dc8e09aab38f6d14fa875f3acecb3f6a7bccaeab5218e70e9);
  (0x49a53a0c31d207a80c2079095835645344f838316e636a8aaeabd43754edf626, 0xca9873bef44fa882a28d15089c7a405656b6e152a01a39cd87ff4f9b06d5e6bb, 0x7943b717d603005a1c5abec0d92db19ad8bee54dbf01f9b65ca58948250c71e7, -0x4805e2182190a30f943311eea76c4a9d011e3a762925228003c4512c6532b290, 0x152fa5bed54b88439665176218d0af79200d31a217d1f5dbb878a3f7c2698a9f, -0x1544407a4bb148f4314be7738988bbc5841a18526f7be461cc8067483ee5e13f);
  (0xf614d124698cbf302b12648f67e35b94ec9aae699ce2ac4ac30c2f97ae77b87b, 0xc913c80a97fb7a9e450af6d07ac2a2a69648331ae182891b9015ba2653ecfb7e, 0xea4548c69ab17a6448df4fe7f26817f97b25f07073764482821d08b17f280f46, -0x4db81bd2087afc17dd437a119632e8c21635ee91d24644dbba761c6fe6f446fe, 0xec8c03a3536776f41d95423aa63cbb7039be2f485bc339cd8a3799060870c938, 0x1759c9a4246bf87e2be67fc9a015f23eb99f54c164755c568eab88ce309227e);
  (0x7684c61da59f0fe2930db6a3ca287d40264e03477ef83d8f00444cce3d0a9490, 0x4e863e07920a642d7e90fdc59accf6c79b464fd98c64f9adc18c122f44d8abbc, 0x3c1ac8843c8b1f13ab4a9498da0f93ac35da06c51227d65aa6bd43a51ab64302, -0x100e553d43ed2c44637e3ac1999ac3a0171a8961ad1949e0cec8a24c1d4ba0e74, 0x36deab803c934e4e3efacca0ace539465286c260c3dc426e1b9664ca18763c38, 0x38bccd70385c890f1e72430f05f97a0faf3c3e87d2eac8fc25fbbef2a8c10ca8);
  (0x9abb42813cf5a6c3895e188e6f88e3fb1b0252a9522933efa0a862052b52435a, 0x4682847e9c7485791818f9d084f23bb60b072ca73160c577208d6774707c6ee, 0xf0a368501697d22c2c7b73d8aa572370540f10c106bd9b74299de7153c593009, 0x1a1f6597afb32e99e663fec23ce14fadd26f57cf4231639d8c4a4d10c842f9fe, 0x5d85d4fdb76d80320b02dacc7b110a7486ad1f3ae9036927bf899ab1f723c23e, 0x2ccc50505aa2d2e4f783931861d67c60a6f6c14be8d87c19356feb36b709a16f);
  (0x47bffd0e5dec41b22284243bd74d6439421f82331caa2ab1e3fe7f21f797d8c, 0xd7a9228d61117472405743fd10cf84524f51bf9606ff00e062f454ab5a8b2429, 0x2fcd1c52105d01ef2c1d0d95304f8be2c1f0294b60b3186d8b4abeb74c8dab3e, 0x833f64e00f27c040c0048f75b5c558a232165c7829ca625e4750b7a8db47db4, 0x141c0e598dae996e391b96c0d72a089f3c419e16851f28b849751a95a36c65, -0x3b3573b7104f7a4b959fbd58e4573707b76dbb3b4df778f171fed6981085865);
  (0x87ce2f8a06f747d4003311b4ab65f2b460dd06105f0ef62054a6ad6f8829c3d4, 0xd0bf02febc52ee01af579c159cdd315f46bd52fe3bef3d1750dae81f737dd7de, 0x42f743f47e273f0f4b7bef10be43fc9103ea284743373635ee23624baacf5a40, -0x31d26d7fa7a216d1075087d145a99d981b4572c4948c48a0a8b014e16b82bad2, 0x480b1c341e4ffcb3808ffdb9a25adad25c9000bde66c68616785b8c8122ac9df, 0x3ab085253d967ebc790207b99dd290680f73eaf79bdaf36b3028503fcf832c2);
  (0x9c071dff3bf3b99e0115bb6b03cd10d03c66d5c419846605d1c9fe0c094df90a, 0x533c6a40903be272c8ee503315814f610409187ce9fb0224dda1e5f1e30a3c95, 0x2ee1ee0d8cac50e426565c521eef21e534c86b8cdeb3e7f18108564821637029, -0x1ad03c621000b40463f30501a07a95fa9925f80b3380dcbb243c052de07c08934, 0x5f18acc1b88a239a6d9a60387f49927e9df63ca26a8294310d7e6aa00059055d, 0x4c7f125afdd9874494c531887646da96768ae1cd1432988816a9fb96bc82ee5f);
  (0x73b144be9ca33547c5024e2b48f1d0d01e8a32a4680094cb4e388a350f15cc, 0xebbe2e249cb146c2becb491b949dd0ab4c715812c6f436ea87ab2d8ebea6b422, 0xddb057745f13c9f1dd02f0a4319e9a7a6827fed1da51286306340f000e6a0486, -0x5106518e0e7996e0a9cdd58bc7667240970ee376a4815a03b065dc948ef3189d, 0x3448be8362c50cb1bea7079900eda2e4986258b89079e27ea294348881fc, -0x44ebe5abe7ed9d87053530466956226ceac7f690f9dfd1b15094fafdd88ce5);
  (0xea5c21296b269c7f78010ff702bac9e39084c3046566224647ee7ec45cd82673, 0x780af848100bb1bc5818cd18d1b2da7c7d9b8da4fb88561a39053fb9113b229c, 0xf9ced3f5adbf87828d426e05087e6a4ac16d31dc5ce24b58236bc218b4c51915, -0x685cd32d90c7392370c9870c35e224686d334338122778b040dab3dcf6dec8d0, 0xd68c8dc791f34e2cf6907c5d24d0588af604bfaff290bf5bc46e6c8316e2a81d, 0x69eb729fc5e44f0545636ee8bfa696876fc0ff45795740f6605eb7c6c7208b19);
  (0x5732107a973bb414651d1438e0bcfc9ef6e5f478c2867afd7e0a7c9288f79536, 0x33b460cf3b925b3dcb1580bb7762692de4df6ce1bdbec525d18dd4e07997f5c4, 0x76a4343c645fb7e19f89ac38d038ed6d2a97001a99009edee6bab0bb535b8ce4, 0x14d6d51326f8ae2f4acec75e7b8dbfa50ed9b2635b8068970d92506e4a8fa14, 0x1db310fdc3bd35542972ef8b209238e7d1df07acf64091e0f1619e5be1987818, 0x1746cac9c8e97c54404e0c8152311ea83ac9db0b2d6361f44749a54de8f4c919);
  (0x1f16a3c84b9282411b8e811a7cce72cfe968d1f1b92d684a8fb7d274a38530d9, 0xb543de2b369e0d7c5e3d0c5c03e959dea1e9e1ad80702ed773f69cfcd699b9ef, 0xfa345de0778dd3311769ec21064b2e61b8eef48c05f315c8d0018e75c5cd74db, -0x283585231798801358ff91010b7a30a6aeab7e8d3553a59219a6b3ba16868d8, 0x3c67dab118325ace4f6dac01c88065882d6d079b5b3818c1c6d9d8d3732d4a6, -0xfbbd566a478adc6badeecc5334cd2255042d2cfa2012d4f3208cbcf27f1626e);
  (0x73542a52fad68cd34fc84a1c1ed2bcac6cff9ce801c0dd7cc63de1dd66c67afa, 0x1938cb5dc672daacc89a96e318d877916a92687463570cb0f1009559dd95a5dc, 0x714ac18f5120f29b27a37f56344c06e95973ff260fede93b272a9ac8db263b25, -0x1ad08664d4839780d5c9b2d6511c9ae850d120bd0f3bc2333d1c7921547a2a9d, 0x33f4b9b25ad0b48651c99a6f315aa53a214be847dc64a6a86415a696f506620f, 0x464c46e0da5387aa23d1b625252d798fb5a233d32565490ac974c53e1cab06d2);
  (0xe40fffc9305a96c09e424d5085af7c67f4e7d7869677b7bd0a87aca7c96dabca, 0x9ef96ca531898f5e40fdd9af0334fb82e61b050fb8d68a36d2efc9d1e5cdd3d5, 0x6388542f7d57e3b4c11196b1bd26b225c5b22679f80dc55680617f7ebaf845d8, 0xc266e4f935148b25b37c66f24e74777c78dd6af6dce3421a0f5fb43788f07d0c, 0xcb2c809e57477396342f33d3ab4280ef4e782c4f6d101afbf6924c01ef25e8d9, -0x7727eb910cb7b6baf1475956031366eb84fdb94a4a84161f71140fc112b04c39);
  (0x872d0466917c9f912f2300c1fc71036b03cc87b37254ccdb57aca31f3c2e4da9, 0x2111412de6da753d25f8ae05191053116a726a59f93940016b4f8aea67a4cda, 0x1355c03bd704b13e9e288d2ab18f90b5833d3764aaaad3ebbc250253addba25b, -0xbf0db53d9e89388db060086a40491d27095ad5002a502f5c353680beb6c40b75, 0x4760828eb993f3bf5fbb97b2f3dd977728f5642bb6e0a7670f2a6f830a473783, 0x52da1e3f3aade361ea5dc434fb1bb859bff5040a4c85227b2e8c3481f4d65580);
  (0x998171cbbf98c642cb1f5c2a3f60694f6779727d4546cbb4053aa70e7f6074ca, 0x9cbd74ff9ff4cb2f93555e34611d8fcb54b8772369c860c4262d0a3313e4d2ae, 0xbb11b4997661505adae9bb877f45975e577757c330a91fc51e5bfdf984ec021f, 0x47c319cbe643060ed028395fb727aeffbf51628734e45cc01bdec35dead79aa1, 0x5c0bfb796cf13641f0d2ea08e963f86508394ffc3ff8799e87fdf841c0bee6fc, -0x5cbf3b8b88339125642510bcdd6bf504ab56f06c20ddb3f851cc01c32a24f3de);
  (0x2fa2e6f886d4b979181be5adb130a17715b8c07ace29d4eb98f1cb2e7848af4c, 0xc907e2efdd5454f92ca5da56e856db8badac950a1cedc457fa0ce424e47108ef, 0xb74055faa18af036c3546aeab35bd2cf7dd7065b1be31f7256ff0a7fc5db11f4, -0xda47c4209206e7b8114e101c39f674cc2e0de3753ab041795724630e4873f2dc, 0x8dd3878647044e0f48d1683c9d2988720d1ee3b762eb85bdc79b58cd42b59cb, -0x83dd93e8b7f7be606f09ccd277dc5f5b92ae52411d30198c189664307a804d1);
  (0xe47dabbbeeb549be40deed072d89cee310e2af638303050b255a11a80e01bdfd, 0x7181e2b92bef54bf130ac8615d96094d615691047456c472d6752ab832b14a82, 0x6d8346dd47ecd48f7c767af99987d676e12afa3487f6e07e38cf32f08e858a6d, -0x9279a3f92c6feac91a46be8120b54d4113466c7101c7d10144a549c57b090ad5, 0xcbf01797e9eea341b34bec03f55a1ac324e2a6e285bca2a6a25b3f1fd625e3a7, 0x4e1e4f559355d21e28636159bedc040cc27b508b1c758326ae5c8e1a2fcb0928);
  (0xcdaf9041f8677dd58b4c901692ddecd1fbd06cef1804c17c1715eabb687e6b17, 0xa6cdf85d7c1c0f670e79bfd44645359fea723720003557a8d1f1997c88f05e46, 0xdbd0dcd1e85f12faeb1d14bb555e701ebed7bd614505d5aaac1ae4fc230bbfe1, 0x69e1b87a3998dd13cef49f4445855af178ef3e85557d70736e31f7ba24f8f81, 0xa542a5703351a57a8e33e23c42a37453e022c91f1f29f5162bd07edb28c1ae1f, -0x2ad27a5fe7bbcca4202db31bf35dc26030b724a4f82bf91fe96af3b4848b2536);
  (0x50a221b2f178b80926755e83ed8b0e6aa965d6c9c2648bd7652d018a857abffa, 0xea1b1f2ad77464b2ba71d1005568cd64bdf9c6922103ef7f636c2feca3f43101, 0x2bbebe84194c76708b76fc0bf6459a90ac331c8377736686ed424879b83badb6, -0xbb96533909f1fced9896e44f4b5838c6391fe7a6a3cbdb6ba9c5817c4baeb988, 0x1965bbbe81d4af2472b4d3b0184f314e8ac97341654a080d55e5c95e50062e19, -0x1532bbceb7a03a30e501a79355acf4825f3d38fd738e6298e08ac94e97cccfdb);
  (0x20b40cbe9c02da36ccf89eebbf40dc8b11816ab08dd182bd3e27829b36d2ce85, 0xcdea01525d3f5b6264698e797da45af764c1e11f140138dc50d51b7154cccc22, 0x5ebb80ff3797e4c62d21e95eb2b6b7dad7910cf7b10fb5f5638a1932d77b8410, -0xe5a9ddf567da2be66bd486741e646726e51e3992f6cbca22991b2393f93f1a1, 0x42d81d193ae871cc812ebe4e7f2c09b39552674648c658ba65af0d04bd9fc02, 0x399f7ab56851973c98ca27788de7d36cc7df5e13f173270a3b80dc026817afb);
  (0x3f903a9623f3a297a25a97efae6b1f15f72d2d5190278885076b5ffb16a725b9, 0x1eb71ca4d174992566665395fc4502812bd278bfb0078d3a9ad3331432080833, 0xa801512795a5a217799d47d94d258acb9dc7fd01a119f0eba25d59029a7f3963, -0x1c1d6cc422a7d5ae7ecb71b8951bc963d4f151255737b484fe816fb15ce90d154, 0xfc84e17dc02bc7618bb0249be06da8c48d4789624a29c4c2c3559256279c3e6, 0x2b803aff9f41890ee350a2066c6b3880dadbcce25aa4a2327cc947d4dc8089fc);
  (0x2887892dfbe539056f57c113b65b33b535c84248680d0e7eb6796ae6a4f68e94, 0x4d8ae46daeeb49dd33b41900ee0e03604884a95a2cedf1fff3c3017fd2f67320, 0x4bba8e454d976a25355161853de2b423d2a0d2728d656885122fe7d14e55b1b8, 0xe69552948baf67ca343221e5bb0d2ae876182a1c4ee6439a3907e94165e6121, 0x66aa2a056b98d71b4000308960a81c396060f3f43a203b5aae4a1dc7aab656b, -0x769e1fd7cbf84c9293ed39fd3da5b5cfee29612be3c94444b2ad12258e2fd11);
  (0x4def9248e6dff302f51cd7aac90def761ee0913e6e30a901726eee5d2af0bd08, 0x3f338980b32a474632caa6518c97e37384aa655b30a9429db756c457f65dd34a, 0x1ca16e3cb9a84f041157d2760458ae745c0c3e434c88d72fa2a09c25ddf025a, -0x185a93d7e6064b8775233903868f80f70856b5bd6a048ec5d3e037774b80e780, 0x17b9fe3252990a71a6584368ca53609b477b4d5014d0310d79433b2468cff92a, 0x45db2191253d899ec5a805cfdedb6ddcdb842a371c97fad38c35b89bcb263c2);
  (0xd70ec55e56ad99e96e757647b163998380d2135314ec6ba5669654e2cb701c9a, 0xb1c8fd9dfccca00434e98fb6f5a07c9b3577378de34fce4735e38bc033ce209, 0x1fac202082fd644e909a882f42b455e107bf985a063f7755406cce0149bab3d6, -0x2bcd90d8c8322ba953a6be0c14df7d15d218d71e34c7587cdc6f92bdd83e215c, 0xb4a9d05ea41367ade0c8c6157a58f785ed1ce81c51f540bb64247fd90fe547a9, 0x2bc24d15a2d329f11f050a37cf5c1a106b1964d76a75db43bf408421d03bbb36);
  (0x9b450142e057cc2ea1d6b61937cf4a584a2eafaa291c694b3c7bac795ef7ca9, 0x7887357e266889b30c8ab231ac7afdb66a847bd6032bd5787848694ba35e4e68, 0xc2bda4c16301284802332a364f2a0f8657a192122709e442b4514eaf554ad0ec, 0x4319cf2059cb3657a180f2d525fd530dd9cb8e9cef8ebd4bae6c932a86b3f8b, 0x5e2ca220a9b8d7cdaa94a6fdd9134a3e0b63a41f7fa7ede590e4c28f980ef8, -0x425d10931c0e851faddf88f283917c91adbbef8928a0b382e142e55264238d7);
  (0x26798f69c77aecbb9dc47679fa3a5a3b42048664b0936ed1f7d3ceaaa2aef5db, 0xe65b090a95a2914af5d2c3e4ab2a2eb64c1cf5e96c3bb6897081e434e1431053, 0x9ad7d4494086abe2e1a7b7198d5163e7e0d65d8f0cd58dc12e3cb3dc1ab37d73, -0x6fb3de4f3960fae1dd12bd1ad39cf720458bd6c2e608900b6480129da8dfa688, 0x5c8504c498e690c0ef19a1f4a2197640043bc16acb7de813856b85871ae4baa, -0x1081980c8a84cc3dec4c3bbb62b1c6e92526c12c95c91161311e07f16ab09b18);
  (0xc952d7109aad33a36e07a0e6bce7880afcfd78602a773b5787c582b3b65b09bb, 0xd0849f96af8ab107a9bd686f1cec0a3b6b078368163bd4eda9869f68679602e7, 0xc8dcb987377b0ad99e7563905453c5f8c52f25a097dcd6ec833ea01c8a7068f2, -0x556a210a45f3582f3a35918203ab1369c41c57bb19c1d27b4282bf28b4e46582, 0x9e5330868e33f6ee5752461b6f5ab02a5602d3ede2880ecae128c133f88c93e9, 0x112c69d243f121f3bec88b54f54e3349461de97d039626f280b8d376310859b1);
  (0xe7d985dbf677a15ded43ff92e325f7a8728474d593951ab233daba58a0dfa191, 0x6a94d1290d98c5468732a9099cc29785b9f7ef17ac1581ce71a85cd9da4046af, 0x525432c5b477a8f59e62175cd27284ad3213fafe4708e4f18a598de8598402bd, -0x91b3a90a69dcd0312884ab0b59ac2fdcb3f09868390df9d3a600ae951cbe6d01, 0xd1fa48672bb2071eff10c5c6e5e20bf19e69819196d719103a5e63641bea359c, 0x5c5200d8149831cfdc5145cb7f640a1600dd76cb575e6d0cd6cdd0b576f33947);
  (0xcac8ee56873c714232599d2d5b3ccff13dc0eed19dc6ffe6958599909137da2e, 0x4e55741fadcb4ecd0abab603bb2d17fde39da5bd4406b13e63ab35433cbab2ce, 0x4f8133efcfebc1baad58038d83eaa3214f797b900abf5697c2c22c56c5981ff9, -0x2b09e2df92ea88557ebf4a4a7f5a29befa5def3434e5dcc018c32784aa5abb9, 0xa0a1b5d5d283b1e0f58813e2b98e16a49e4059c5330543a98f8ec4dbb351e368, 0x16602b36899f05a0a3f7d2e1186fad7e6fd8dd2baaa330dc0a835fae0c8a0bc8);
  (0x6026c28add89ad9101f0cd66ea6b5fe7cc27d7617d3c1e35937151a7e6c61230, 0x7350d30989c0c2e55c1180a58f73794da940a9761775afe368c364d76620ccac, 0x31fc9822bca4dd25938b8e6b467633b1a395eb80dabd74d93bf55e4c573d9bb9, 0x104ded74ca7ba442975bd2cacb69a5310b9ad831a56275a3b5c8dc6f569bcfaf, 0x241d17c67b37ca248bb71488d186b32ffc5b0abba9b3d3547ded5abf23332b72, -0xde3dd0256a1f9416e3dce0104cef3b751cefb8882c637574de8cafbe566954e);
  (0xc95db58f46986400260fb47138c8cc7e07cd67d2adb88e746a72d00c58deaebb, 0xdcf0aa99eb2d27a8fd5fc5addb253ced35ebe07e1dc9ef30001bbfd54b55ebec, 0x137de9aa5e1c5278e8429014e236ef93d6a204af85c2e66b92319d04d25a84d, -0x4d31e60938b954353307d57f04ae3f4c5fe66c3e13ce6a7f25aa2b76f8e39bb6, 0x9e64496867b881c452fff0269c302adc597341485327abc5462d55953468cfbb, -0x53152a3accc493223bc8bebddd125fa0a97c99594c6e57dbcf54dd6cab4af51a);
  (0x20884e7355c4e996e10beeed18d0eb59a8ab9efe966fcbf59f6ce3634ccd7919, 0x9ddf73d324a02d720bb2412029ef61c63a935fb6c07606dc5f4bc5c9fe65f88d, 0xa3d99bf2cdd499a905d1c5c9718c07d30ce2fed597d45da41e79007ba1a9ff99, -0xc9b199d8e0b0b76289d381dafc858271ae9b99b5148c3723a139e3f3d061a91, 0x4225c304806d7d8129041af4e0e42779ad27f312cb61c0b3ade5dabf0e5e5a0, 0x803bb519af87fdfb7762102806ee35b5594590359a09fe5a8f320b845ad456f);
  (0x2a4bd615dcb92eab8749fca442567a011047d914ab262e9a230a75263a88abd2, 0xbecb4683ab10841efb77d3e16532afdc0408278a9ef5c8854d1e6ac596b6c180, 0x2f6eaeea4fbad661752feffc4d85d8d026afd78692d7abfccf22a595e69e8f50, -0xedef0a9b12c20451e614c2da6efbe236e60a511891a75c7bf55fbcf5d532e2b9, 0x6fcf8b65044a6b52f9cc8bf1f7c1b455eaf1485eeda3568a7fbe84dbfe93876, -0x570712fa1a0237a178d5b2932183dcfc7919686e77c5a25acde231a4b22e1f1);
  (0x390922097e24cea7866575ce321f6a23d5bdb03a1fb0ad4ac7ba882037b8e613, 0x7f3884e02c4ee06657c57e693c15e73846a188ae5020553a6554c6e88d46ae6a, 0x86e51ec3e50750248ce9bc60f9948053c0ea9cf0dc5ceb46318137e041d7763, -0xf62548330d985f60a307f907a8553c264e58904bda91d529e1435cbb51b4060, 0xcb5117ba35dc8790543e9ca2f7a47b54df56ba6cc04497640b88badbfadf3c9, 0xe29f1ba0f2c771b6fccc482dc7d5d3a03e2512246fc0426ea2596f8478de041);
  (0x88246dec0a2f5c1781c111b275131f55b126fd8e265fdde8ac3989cb1274622c, 0xc9340d137d8eaaa3013a5bbd04185f63e2184e38397177d6d1c4637742b4ed8c, 0x79330f1ac4a4157afcd03d587bdfb89c74388c802b54401b42e9c96750e0eede, -0xb4b3c3a2ee87cce3c41422d268a41614f18bd0256f42b1ec34e07bbcef8f079c, 0x4866b9f9e4680979fc9f2ce503857917c81e1258b21d7eb93ea202fde58d29d0, -0x2758277eba323c6ced1bcfe32693c9152e74357b04f6d4c676338ac423f8ca37);
  (0x907e6ca0df806efa454760a45d6531e8911524be961db28481f68854ccaa76f4, 0xb371f028126c676cd92d0c7e533eb71231ef7ba784204fe84bef76f34b1679d8, 0xaeb5fff8faa3dbb780856dac00bd751d207a43f71c97f23566251b400c028c6d, -0x151972f3d5f7be0eca05818e627fbe93d69dfb3a2d0686afa8ca2aa3f4da33980, 0x518e78a417e4a0f34d9b640e0cb4edf89d0a78b395c937a48fc08fe2bac1ae60, 0xc47ef0a38a666af2add405446b1da51c956778c7ac0966ac27c45c02f7025cb);
  (0x178d74f76eaa73bca5b6eb2002f00e70451125257f4bbb21afc676f885d66ae, 0xcd7ede8005d27060e40362155446dce717a85a03f30c784f5c124af6b8fe4e0a, 0xb13c0f7bb59703da6956fb17a266362b9ab150b9ab10e6bcb43f0c0897e8ce38, -0x177573d27b5548c7fbf44355640faa117ff63cf80f1185ceaaf968aabf4bbedac, 0x22ab92e83e3b400993aa2e857216a5d3c9e5f7a8c3371bf9563fb99fc3796, -0x2658e70370bf1ee014f6962efa0aa6fa10145b9142a7d1de89b01d073e0c2f);
  (0x597e6e102fb22978219b5924de46902f6abf9a6e5a04e65a4c56cae2bc05333, 0x89278f84d8ae41396327b8c3b75fd496e88c3693372c5deffff677ca1b1af3ae, 0x14ccb071e40653c9a75febf25953915453842f1db5211da75b1dde10a8db6981, -0x1d4746756cdee162cbbada9c0bb73a3aeecbf603f584df8d4fd69517c4a02aa, 0x1f4926f7c86abe39746a6c04e4fc2b3e1d1ee3bc3a59546ce22da3ff2ec777, 0x17e41ad008724093653eb77189cf86f418486783f313f648ed8f958f2dcef55);
  (0x42344c89ce9fa6d61174787e0eba3437b9930069b36e38fa81717f029a015e00, 0xea794f1805d9b9a353d1dc7f8e090f3856c216f924e05a44e35bab81dd97dd73, 0x9423b937967e3a7e8ee1163e84db40eb079dc450db2bedb1a5df10fc3018f007, -0xd1b00e995b4ae557dfaac0498c86a2f0d7a9ba69ac8a62c9c6d50f54f42a9af4, 0x111f02263d685fbfc0ac24fef7bd40790d17bbf162dc187d1eef1ddcb8c8869f, -0x192af51783b61266a787f5b2cb5bbfcfbb393c558f8e361f92d9b7e9b4803ef8);
  (0xc83088e6b3791f3e7aa83a7d45619301350a1989d41646230416e778ab0950c4, 0x58c2a44f4182d2b43b1a210b177c95d92be2b4fd5f1a73dba5d2742769ba363f, 0x6e355be74874936149c42ce307d8d3589c9dd56fcc04e8e5c7da03a1aa7bd1d, -0x5827650c10963474da48486780d46060db54cd0350dac816793837884311dd33, 0x9c8bdf1c18267cd503bdfc10bc3812e036b695cf14717e8deedd0809ad22121a, 0x71f255993a0877ee71d0b858cd1d351af78ff6843f19359ca90b730c017e8d14);
  (0xa62fa653dd6625350083b4e38393ec4ba6d7f9d8d81c7769e8759cd0f41331af, 0x615cb51877aa4c3fa2ad6a6b6a64dad62a9ff1438f82fa4b501179afce7c3689, 0x5065542da163616b7edb4bcc5178df2134a203b60d103dd097e81ca1bebcadcb, -0x5361cb3bfa47c8635ca2b06edf8cb8305e94aefa1bafb6a73416bb7b6c9272b3, 0x6be1d49341fca25c2e1760fbccb4ad5247d1de9c068673d9b6ef14f3eedece86, -0x59580c24654e38a4da0f6094546b1eb79fd37468d51839649554bb50b28bae2);
  (0x430666e4307db4c9024466cc9d9d6bb621b66e1c18c902e9d45a91b9b703b168, 0xdde4dfb5dfca4fb57a8ce9ba2ddb2e52380942165cba4719d2a925b9a4ff6ada, 0xf78d44a4251d5af7ca3ef4fce177626ffbc755bbad781c7ab0b12bd7972bba37, 0x6622d84a4c961b2c9d1006de7d6263350709caf5f75c0e8ba1d3009822b4ac5, 0x118c5a046d6eb49045c57e63e4ab1a327357546fa09b620f7f94e94f631a38cb, -0x209ac06573c82bc14282e81d4c25df73f9744b7abb122bae5c33ca8c0fcc0836);
  (0xb7d7dfd2dd60ebc633df4932f165679c28f925b5ac1c11cae367c92589a57d92, 0x6d18e5da0bb638acdcf053a8a4c18563ac2f25e7a5fb7e11df1bee0c6bfa399c, 0x26ef4d15f51b5bfadc9158bb92987ee36faf52bd1c1f26cd6fefaf6be261663d, -0xdd716c51e542a17b543cd739e75556b61bf4d199c544417b7815c13aea3eded0, 0x8406580930617540324af705c7e73321130aaed62c7a84ffb7b6b26e79ab264c, 0x5100ed8993bdb87b04f2a3fadd12cd959af9da94b9cf3fedffaea03acaf0b198);
  (0x75a74a2e990e1651dddec1e928034d4da24fb8884096c0933e6136f675561c39, 0xa2e971319e811abcc472a10c00a63c01b36015b9f4c903a66eee38bf78b69063, 0xc9e48179584f643c3ac90f8c01979d80da43c28aebf1488a5eeb82eb428ee39b, -0x67b1033995e20ed56f07653180ec93b1b5faf8148dc3f5f8acc5ffd21457fada, 0x36125720763189bf75164704ef08685a7370c43c4e5cf1369e9dfd2dc9d2bcca, -0x18bb7a5200246f35da1a8c9394631950baf2af5241920841890392904cdb8589);
  (0xac8358ff17e0d817bfeb4ef3654e06479b4046f4105d204bcdc996a0e620f8bd, 0x4060295b881020868808d601fc617ed310da680dc1272afeb51d22d5c641d012, 0xe52b58dc425e36900b93810f9711f4341c4bee0388e86a5c1007e8306df3ebcc, -0x26ea9e2f1c2e2ccd5e0b1ec5bfa9990d89c694bf14483bd5898cdc59f8346f93, 0x7440c2fafc18f1183aeb9c7b1ebd5edf233230f904cde007545716a04c3e8f1f, 0x4266cac4fa426aa3bb0cbeda81c72b6a4776b0b684fd282070d657678e8c6a7a);
  (0x1af47f3c8bf1bc3299444ce6558889c8d92745da4d982d3a7efbf7fb5d46875, 0x64376b21db0e240f0702e4ce7e5db4b6d288dd2a8f1692c172b5442877dc1e68, 0x3460b832e999a1f06414a052ff3c73c092eae71b2b9a1d13e918b1daa10e3254, 0x60a5c8b311e7f9f3ca449bb7406233b50ef8d4ea46fcb6f902a16472ef6f4e, 0x2d6935b17150034c620dc3dd0d2765079a2291a0100b50cb2bad97d6f8a49, -0x3c617a919216cd376d9b7cf07e6168416811d20a64d36ec88e849fa29039f2);
  (0x679cb473dc12a2918c3c3827168fd9e524ccf4f868b3fd2191d09eb1e500121a, 0xbe92cb550ccf151a12d7e8f4b31d84905f1b8e8ca73b2a06ae5d1287bf4b9aff, 0x24037ddb37fa377e0f77f7a707eca5629c5023de82dd97a65a31cdc84a1ad5d2, -0x4b4c1324178c3303af7e70b82a90116885f360225c01bf769a0736909886e950, 0x29ef7921a77e5770eac62351fd986cb7f6eb31b0f5272f14c3d74bacbf958c3b, -0x249213145c9443034c2261cc0a031cfe2b0f8230399b005a35eaa393ed1c7f44);
  (0x3792680c098ba165f0fefedd0b4db31ab7441fd42db2c5ad59800f83d7de3d26, 0xde625ea4e553f63b2dd771fa4bd4a55eaef1e3162f831079f0d5e1753a1f4707, 0x66265b318080ada3509f0b767c8e894ccd8cbec6b5304b56f8de686d0eb6d577, -0xef0fec505a5936c2ed68472a91f00ae2e62d19150e3e22304ec63f6174febd0, 0xc103c70041eaaf03e69873d4b5eca0b0d82ca4239f28cfb7bac1a46bcb118da, -0x6e7c9f5fdd105cba4d22828418cca12e88ae43eda849b6eca1fececb05d7fd7);
  (0xdf411aa363e4786d551681a55d89e6d7ac119e4a3083e8c79c9a718d8619b3bd, 0x6875495401a76dadc19220b0da504a054f7a470b9de35fc9aa385ca9683b1a7f, 0x5f04e25cb19d290a14c25e38ed7d03d288b53fba8815f4bf1e8acb22d182f2e, -0x191617e3b08d683f1edced6b54eda47551082e774620b18127474dff8a7422ab3, 0xc2b27cf731c65c6666247cda2724169b97b081139e13b5ba82740b81686473c4, 0x66d7830937ffd1411d2ac1420c670198adf917a613d9e3382c522cd2db1af8ad);
  (0xea1b53c2aa6f71a051e448f87c88a9095ea873028a94bd4b2ee9af90bcb1eac4, 0x435605ae5afb180de74aa637f81ed1c382c26fe31438d711f624e46e8ed475b5, 0xf547e8b29bd65b0fe1e6ab48654b445dea46f4d7d05d012f543d6159c8b5730a, -0x7501f080a9585f2d12de2223ba39307a0313eab904c7d535a20e0fc67126cadd, 0xd615f80aa60b7dc61394fb10759cf4c9729c84ac3fe180e16b2f237760b16233, 0x21f28a46ea28fef7b5852ce901c9517a93948492987488ecb10dd73cd0f14e90);
  (0x962cf5d9838fb9fc8dc74d7f74df049f7d85abfe39fc5339cec6714d59376a7a, 0x1aa54b79b46b53f6c0ef8af06c63d079781837b8505c60d6604480d427d2de71, 0x79114095ba226d1ebe73182928e460044aaa34883f653f481aa7765f115464f8, 0x1feab6eb000b32eb8369a3df826fb5c038222461268182dab9db417bc86a4580, 0x5818b800550bb5fd4c3969e59f5c39e601c3a8687de9c09a7a023bab4ab0d87a, 0x17deb28e8f905f34dab05112b53662a8aff94ffde67dd72bc4790e23cce5487a);
  (0xede379c8816bce900ddeab2f33b9113929dfc9242b63cba9a67dc5f5be8bad6d, 0x21b3dd09141d3ea81aa2d8202220fd0231b0af46f80af5055cd0241b27d6a9fb, 0xd0796f6f48b66a800848d16b6b855f2a97c70960280de5a044cb68e8cb291ea9, 0xd8af1f306b3ceaf0d8136ce870be99af5eaef1e4b97eea1adda4334f776de303, 0xdd0ef99e73264909704ba39ea64aa4c8c8b23baad5c8b59e3dd561642b772034, -0x68ec20837795d68ee157d6c6fe6395fbde8b60bf3558758677b8d22a6072f0d);
  (0x6321e085fdeb048016841b6a9ed4eabbc689e49d289e4aaab528e4ef1543312d, 0xbd68db6f221b99f8092066109c1e26e7d34769d6aa94b9be6447bf444df65416, 0x11a9e7aee55f7eec3709280d32a864f5611f9793093564881e0672ad90f7561a, 0x9425811bf97e228299a6c91e326e231787a02c925aab6301cbe8513fc8cf3a11, 0x2663382349d9fe8f545d2e688d5368b51e9e84424ce52fc6df459459a07acbb3, -0x3c4b994620a373aaa341991fba7b162324e544682fa603ff092515050fc2571e);
  (0x3e1aad2501702f34893c4661ef8fd3dba7dd179e51396fc675d4b6dd99347fe4, 0x1064259d72ae82f5ea700aa95cbe20c8fb18726142ac757b15f75a8dacab132a, 0x616af0aa10d3e4c69f8c9f0003dae01ccb5ebdfeb06d6f6eb47df818920cf537, -0x106a5566032dd3a37e105ec43d3a423835ecbfccfb0e467ed0fde7f38f09a90a, 0xf10eea58d51aaf21361ca889e39ec63974e2b7ff0ba6483b4609f3cafa51948, 0x29f92b88714e0e2ea97972aef1f52e6ca251415c5db7e0720ed2d280a5513051);
  (0x39b0150b6e95f57baa07963f4bfa9ced1c26ecc4c51cd8aeb46e2cad878df313, 0x8d67d8a424617b252ee8402586d0af21d66ee38a0b92479ba7fec6ebdd119f88, 0x12a6c261d58bbef8d69558eb93046a6f0cb4deb6d055f1aed863ffabfd00b746, 0x28c19e979f9136aa3f06388a74624636c2c9dbdd17bf9787a680a1f3f1847ae2, 0xcffe27c08b1b629e6afc4aa95a3bf83a69fda90c0789abb57c9f7bae49ef703, -0x1c2bcfae7504141f792f4aa50ed2ad9701c71a9930d5e4fc49e7d22969c2c539);
  (0x2e0152ce0d9c1a5ddacf15a2f517b25627330c683614735674dcbed624e65ae0, 0x1bd3f4053f1ee58fd22d848e77c79100d20b2f50b5d715372aa9766e2f7c2f89, 0xd1388c8905e5c09e980353ac185559827024786e0a9ef4d4d38ee287c5fd2564, -0xe39e8d150a1517650ca52b2df36fafb2e06f8c7bafec8bbdcb4dce9dbad9ddc0, 0x84479c3cd48db43d835ea7b37d08cfbac842229db8f63fecb91f658bc43d449, 0x146929653c177ddd473b3860b18a5f990d798ed1d5b7f9d8cb41bc74809e336a);
  (0x17f6a184c52be2960574258b00dc41b7d17945c0e4f265e240e90eef0b7b42f6, 0x640fbf6a19422f4a0d09f5efd974af6853f3f7f0da58d0cb0d6e21a093bd1ade, 0xde69a3b23101c4fd8fd1b4fdd6e46e382f35f4872c5f688dc221ce40ef90da11, 0x8ca8ad417f79976e65525c713dea41414b647980cd2a94903162c28754dd0ca, 0x23e3ea0ac8117eb8d6c49c9a3a499e3453fcc5ba2759051b4026460c51f41ab, -0x6c2f64e93e47c3823be730d58baf1bc43d0fa14c02130245f1dc5e5cb333d4d);
  (0x61ac483b86acef279cc960de2414b52d100d00429d1bef1596a5a1e1986ed89c, 0x72acea11a9586775aabdd4945d6169cf7e2af30f3b9d2064addeeb35858193d3, 0xbfe6c5b2b62931529cac291f44f94d260023e59a482edfd26483c0927dbaddf7, 0x34627dfb377f7d25ca29ad896c353dd947b0cd2f929cd2ec017010d25cfee094, 0x254402ae406d8f3603214da5c1f044b3c2b2c87bd21fa662902c04f7cd936d4f, -0x59362e1c01552ee14b1f6ea56fc149984dfa4130a4e1f4679c9e0f57fe076ec);
  (0x462d7a741aaf1d2fdd617d6cd96e093046c39d7bf1b53ddef68827f59ed5e222, 0xabaae3174d100d86c374264261264761872505fffc55110606506b7c5cea7739, 0x43b513628f6be648f5601cf6322b0d940a84bfb2f1f3c39c7f6aa58e40b11134, 0x1f0097a4d306c96c2c0b191b5262a78bd05c6331b75786d89f3ad53e7742be7, 0x133ce70bc5fc039d893140f5cece617644c9ff4f1557f95037bce43f2748dc20, -0xf9f91ff32744cabccb979069c7f6e3afcb04c03e4836bb9268fec8996602bf9);
  (0x362429d6a8eb7152c8a25e4a154ab24d80b0401e5fe0a20c9a901fc4628f1cc1, 0x2a9e8a01fd899fa1697bf933e44f9372f7e4ab7475a65ac5f9eedffa158a2945, 0xf9f90f4b4d45d2caeacc4d6e65c7a921376f8697db69c940ec3b7e119ee69bde, -0x13cb5b31dfb82567bbbdf68cea99908045bdfe0f0c4158e55256fec6350acd945, 0xb7346c25a794c210f50c5631ef684a7328a832456690c3eb2659554e9b42656, 0x1b4ad59e3583358ec85f41ed73d24fdbd3831cf0f07cf118da3b0897d208f3be);
  (0x897c5346bbea118021d1db8ddeca17078d61494255d60d903501ab0d96dbdfc8, 0xa437e9ac01b5edbd44371e4836e9f75372b2d57c82e318fad8a1943802cbb03d, 0x514f19747e15a1f5dad3e00c699d827f89be057f687e50a42c65ae32389822ed, 0x2a7e7a2ae0da20d6ed10f09356620d99731b1b59ce1fd1e2c4405da307113562, 0x49d64d827cbd82e12d9dd3e04ddedf7f9e6947a5efb9debcdaa91c38b55defba, -0x414e220aa5cc3a7ced8b3db2b44c268a87dfe99f63f11c833632af3e3edf6665);
  (0x4a4306f1fe4fe56cf8390f421fab831d29aa38e749b6fbe2e1011e229d1c4dc0, 0x58ec90e5ca62e680b73b769658151c97d5c32b5253a326cc992da56c3486a2cb, 0xd0a42b4910e2c6e83a8adc76224688ce59657cd1978b970ecb3df995839f837a, -0x10cdac047c4a38f1d6c50e5f5898f7293baaaa263e37e8be58e1574bdbb566dd5, 0x158ad19089e18b21a45ca1b1e2801f8640341da03285e0a77d0e16292e04d935, 0x15d77e6c78adf487f032dcd27f8b1ecae556b3bd03c216b931e1dc0d4ae86537);
  (0xbd1ab3a4b261496084afd99fadfb56f19c896d5f05c139a72e1e1fcdbb07be70, 0x3a41b097f3b1f47679b8ee258ed73eab4bfe769cf27ebcbfd80adbfc962c2591, 0x668b37a247a80f04a38fad09398aca9b0d04e52bed2cb2ea204e678c6f1737aa, 0x183e57099f4116841c21e105981454bf71e5270076685ff17b9d5707813ec22e, 0x8bb0700a2ae79d8481150748cfa9df47db8d7574e66d62bca94fcd61cc31c0b4, 0x16a75a7975150724cdc0b2d80a17036cb336b674659633b98dff164dc9298e84);
  (0xfcf1523b82f29c2de448f6d989ac55b2df8473bf03b0568f47ba0ecb0bdd77af, 0x6981aec0adc4022c3012ac6185a0dd9b0958d134932313d276940b9dd9ef8aed, 0x1a35d4f9990db04c2ca787d4e05cae9bc3b476c30cc76f67125dd5538402e8e8, 0xa2ddeae7151e1e48d2f1fa6096dbf3ba31dbfe0a771a0764d6aedc7251114f47, 0xf9ebfd6118445dfd72b4274d464b4ec3fc58f88543f4492347e3379dc556c70e, -0x2eaf889bd6d4d5dcda5e63873af5fb11af3cd69e6dca822c09b09aaa0cf4ad6a);
  (0x490c1ce453ca3fd42de1dd36b26e293a111b987c7deccac16fb161186ca125a, 0x7b7dc4ffcbed4c10c76c29bfdf82718250ad3be97b4d778dc31d83418e89ef9c, 0x4d912e38840dc7741fe45a0714d09ea588d49ba1d98c2216cd33174c44b2e5ed, -0x8183963c1e880ca984e390f9a7ad566b0074355926a0e81789a0741a5c0698d5, 0x14d7e90cf073f15697b3fe7d721c8aa0aba6fcc41781500b8ef40136424f32, -0x521bc30a764d820fcc4bf5408fa5dbb82ccb5f709a8e5e08e5104f7f4c3595);
  (0x3855482b858ff0489054da3a871a0829ec1abe06156a9c76d133a74243635ec5, 0x13dea541142fcb5bb5900f4bc9ef2d44c14546438631805e2267cf8d875930d3, 0x1a6bef85f512c47681f5651d2912fac5815ce358c428fe9938be9c16bed02c6b, -0x6271b4ad5be1707a2261fb0a5d9405162c2e0b588f4038b8ca3e43ea8cd951, 0xc656bfc0bae2d3c6a8761fc75cce3410284db3879d28eaef6c4820598668f0e, 0x16cd53fda13c5d6cdefc4a5345c2af3672cd239964123c6c8395b15f15468abb);
  (0x2e293dde18e6e71e43395520c05773ea44bad530ab495d611458e2ef46a7707b, 0x1c3f22027346472faa1ddd7b1ad00e22a10cb302ae191c0fe7514a34660a7987, 0x429e960a772acde7e164e0fc29e217957dd4c24443846dd0510bc8b9ded5ef95, 0x4e6e2ec13d7395e84e553580a33994c1dde6569c9bac87898ae22c2a8a36399, 0x852d8e0b10a8d9224e38314bb417602fc49f8974be0d94349e642b3f50f27d4, -0x182afe4fc452225009e4f076fa84c46babd634874fa9242f3e85873bf539244);
  (0xb06e1d39763a83a57fb67b677d4b44e12d71299c9b00785b1112809177da5c59, 0xdb7c545312db194e8c651a291317b7c9c8ab3cc48ab0fa9ccbaf1b9826fe4907, 0x104503edb8425128433e33ec9dc1368629e388efe06efc5dd77e7e1b49eb316b, 0x5279c0c64a2cd1d83831c8a2adb62f501a4a327ec666151465c0369af634eda9, 0x7997978c234820fbd050c7df0cdc76039ec20ecaafed76c324de373abdea8fe4, -0x83cc54b7e80023d56b319aaf75cce03370be156ebe985cac3711d4e69a0e6380);
  (0xb4a04407ebd4b6a776a7bcf22e2391ef82fcb38caa323d9d88f6b064243137c6, 0x95c65a08076f8d8a4800dd9725a647fa11b5334676bee2d9f514f40212559943, 0x51298cd0f9ebedb7936f3ca5e825fc7b6b7365e75af348a2922b55276e287630, -0x21d947186eb716e0008c1192d40abfaa3837d882553123bc71a16198829738321, 0x7f71c4003f9e2047901b5fa8d4afb468bf61f78f2f6b60491897e97727e7779d, 0x312f983fb19c81c65f6a8bbd3b711057f708f5d9c6a4c49ccf80512ba7831993);
  (0x3744b45e624b5e48ff3377f3c07d5a48a62ed058e0e7960d23aeab1b85b0fbd3, 0x5c6d3f275f8586c9f9d495a59d6519eaab7638908e6dd2e2617e9ecedab10268, 0x662779f0687cf46f8d2d7105a90b7add59950e9f9e4fe60aae55b22f8e5d924f, -0x60d3b2f0f3d3bd65f73c82864cdf108fbe4bfc2998a9eb7147fbc7e077ea4d7, 0xbee97f0df757793c61d5fbe85919d4e10a9adcc36a345c069a8ead28477863a, 0xc6188d93362b4af42c0172dc00c388b79ff04dab1abd2a4709d508af5963e9e);
  (0x4287ac902cd67c7e2ad5bf1085a4583c2156251d39355ae4d1eab8ae366e1da1, 0x157992523f500d24a0981c07238b5097fdc7113ad4b7850c48e2513adce9fbce, 0x64b9eebfd9dba130d1a89bf7350985589326813ef813b3256832a54357d1b4fb, -0x2f0379cebdcf8b01862dd9ec8dad644fc82f738f0c8d1c90f65eae230c92023e, 0x114a3ce1cb7fefdb0b9769f32fbe65b5a04a7c6b584b4c1309fba8e49241a3cd, 0x12706ce2c44f82fdee3acd5fd558c6fa97961079b1e71d2c22caf15445069370);
  (0xba3a1732d8f416c8d30c483abba55c6650234c26cc68ee2b4b5b9dbe94eac59a, 0x3e6fb8825fc86cd3ea21f178c80db94765dd94e6182b9ce70351d54613a586fa, 0x75474f302f2e26e1040450c5c21ee4bb4cd61198ab848778e195e21ff75d3458, 0x8d246238f874bdae4fcf75e8763862b820f99b05eeb31f77362ee819c0829050, 0x877876e468672ccb78fb46130e0e40f8e83707d69bd15fcb5a3096f650add552, -0x1dcc2339deb757967bdf9293914e502f66c276ccad7477cb147a7a4f6904e525);
  (0x37775d936f164f8a84a47a9fb920758d15245f8c54c93178d1c4b5cafe4aa748, 0xc0345e6a332abc4c820ac910821ba56f7b874ed568db814148e83644e55fc8f1, 0x83cfe84d2e5cd5b3cf8f1eea5ce40a12eca67352bc7503a23795350b9320ed37, 0x52317ad32f87b39379e368675be05b49f56d0d716702108fd9738f5ffdf2b2c, 0xc0481dd7b01508a716455fa5b93260c78a9925e10833e3f5817d3d08b687a95, -0x1c1dc17d19ad70d69f089ec688d3a80a3aef56dcc4a5e8e0c3d9bc0495d5bba9);
  (0xa4a58801d8546d2f02a4050f921dab5916a5a5dd44176f76551f3edbafa49fab, 0x32010f12c0902955acdc75b3e601a547b3212691c645eb0f8c85a4fc94766b0d, 0x55f1229b81ea9c07076323ec016824b167ba9ecb8c71f03103c54e041497f773, -0x1075ef14e3c08d81a28dba45c08b1e06f150a22869e2b5a407ffb539219a28c27, 0x69e4814af7cefe961574ef2dedd08836ed7f78bbe9d0a70ae074efeb8d21f0d6, 0x5b74d172714bd86e31661e5a019ca28bcbb48ea45952b7bd8d7b39bde96048fe);
  (0x55a917ba6b5d45d33ea48131d175456e0b896ca85247cc49de12458f2b48d505, 0x15204ba630e2530b643e9ad6385e3ea18bfec0aacf2ec3343225908e36b9bd55, 0xf705bbce0ffc5d3f8b787ba9c763d0e2aea597d19d0072d100929c4aff705f0e, 0x180140abe5fac4cf1d77936b71bf556b78840db303a307c719815e384b17a82e, 0x1ca9b97221a0b88f6b9e7990a405b292b3474a258aebe6ce4b0ca3dd67281d11, 0x9a9b3f14758c6e7eb30e6309231cdc8a4ba7634f37aa5f91364973405a1f299);
  (0x370e8f0214178e23448c3e2d2bf282e330be2f2967a412792452a0383df0b62f, 0x3b8cb57bbf18b91d243d6cda29af58475e530eb2442bee4dc6030820d9161ec8, 0x3a67030248df1f93ff202a5046f8ea0bb9ada2e37b385cc681f735929e441118, 0x65059ddab4513b38085159c47b874d0de5eccfc73bdd33ee5df49489da2f27d7, 0xbd74246d8bfa41d560d11905171d2632e789e105087f2180c99f74618926901, -0x8437a218a36965a83c5c21dfcdc93bfc3b305231bf3e2d9a481ffa8628ede2d);
  (0x50cf9a814a661783423db02e4a5e06e785ff9a267cc04fa814022a9de2273796, 0x31ef101ada872621f7cd15cbdc5e766964c51424046e0594875a7cb758317cae, 0x6739b90dac8e5f1a4a9e50e5029421e9e9551febaf3b80485c82370d81cad5de, -0x4af6002e5a4aa1e94727092dbd0736a11603bc9a999265f126787dd8c7f6560, 0x198268ec08d5ee9af4787a29748794b70b0c139d925c6c7de45e73fb2e6f413a, 0x3090ff4b17e56771573a4c48d28a63b53c82d396f8f7e398b518f54039fea9a);
  (0xbd812c5cc435aadb43c291fb04112777d6607f416d48ecca063d66c94d240d4e, 0xc0e4e84498489a714c6b7bfaabdc4116de4db0f226e138551bacff0b553ebbe9, 0x48683e0b9f0d0b9dc14231f638899be10ff716313dffd4d3871337ae0dd8a5f3, 0x35284eb41bfc06e435eb0c5ee11ce9ac95e24fa86c2785f95e50fe8431491a2e, 0x8c47fcaeb6e5016e02b7fb6749969345c6169daea9e071af556d3df5036ec77b, -0x69d3a33ecd337ec708950d87753f99c7de93ef4ea2ad808fad406c9687367425);
  (0x15ed51763216385857d89c815309ebe43b35f69a834afdb5cb1b2cd34ffcf80a, 0x4d2b3516ba0049854e67d41695eb8ece643c93d17e0994ec139bdaeb2936827, 0xaff453544e112f0d859b53ef74bd999079ad82b5d367e4276892c886635a4418, -0x1a7a121fab6bb34b2a2c65ae5af7729b35cda7abe422b31021f6d108b61205b79, 0x1e0cb5d52fc64a717ecb9b74bb3fa1fbceba4fe302a8a0736405fa6d5884485, 0x101bd70b8fbb66e2614942cb176221bf9c4a05c7da5fc3c672b3d729e1072dc7);
  (0x9f0934630df8621d6a3c6c02ff916caccb0616bde61bfadbe8e0e5aed2afa375, 0x32f44a983fdfc81f9a4446b0aa6d39a2433544bc32890e8d9fac2d5a51a0695c, 0x142054a4949028894ae64f3387f36615d713404186a4ff8e9541ce5a056e53c5, 0xda585da451482e10e7434bba4a1807cac12e818048b35c768d0197dbbe710d73, 0x62cc6f67c509e95826c3874943abe01e1b34e1a7a1515277e29d0f81dd615461, -0x1ca88593fb8d6b173a77aec24ac38ff2c398b4dd4bd3e44dc85017800f04c9ca);
  (0x7e719a2b2ba07ae6d322194e523da6eea7ede79a3be1ffb3fc12bdee43de1167, 0x8852100b59f344a5da2462967a73a86424fde8eff20521a1cc77cf49f13dbd95, 0xd2fc2602b0d516972659d99fbee83123088fdbc8cb6c5e400f64e1e31c72bfe6, -0xa8b52aad7a50b52dde6510647f2020f540883a1a4e85e5826b42e9b87c5f576, 0x3e74062bf5e6746c7ad24276ca76367e9a9882be252bd2bcc28a08db37efee1c, -0x2a2a08fb9cb7c5aa8af2a7326dcbdcffb232be3345a530170c43b9bb492b7186);
  (0x6041ba759eb9a87f0bf848fa65af818d3fcfffaa0c80943b90c7449163936b3e, 0x348ed1709ceef43fb91b6f2100f419c3b906c5fa564f4e78a2c44a31493cbbd1, 0xbb0c5e0d14d4a94f277185952167db14b94d9104e1949125dc8456412f369a02, -0x3b1c6e296e3703eda44455fc694981d80e9a4efa1ac61395aab1c79d969449ad, 0x24315cb86e94f9571a749ef85fb69a9f046003c3c7246378941a9cac430c3547, 0x1f7eb90f43d2e629ad0c2e815809045fcdbb5412fb43655eddc787db60c94570);
  (0xa6a11f381b330e0eceead13193ca089f4cdce3ed7c19bb361cec09cf272e6dea, 0xe95d6e1c9fd8291dd247b53962d73f534efcbc59d8d81b8fc63a7e19d133e390, 0x5df18b5af183919b4406866aeb31e093d70472fd950a756745e949c574840571, 0xd3207eddf34eccd95264eb1ef785ba40e78761830b8b35f5a8d5e218682b644b, 0x6c7559e50ba70f55299a56648bbd07f5cd440db3fda5992995b8580d28fba5ee, -0x75afc594b772008a41004134f2eeee395630593282bd2e54e90007b6fc7d8a47);
  (0xf46c2f33e3c1237340aa05dacbfd10f83f8c6aef5265ffc24313453af50d9f95, 0x28d5a32e04c63c8d89b67e19f92b11fa1875c4c0ebb20c458ad3b3142b4a2bdd, 0x27ff550a06dc3cc2b1dee4b81dfde2b8f7c27566c382148a051a0dd0d9d010c8, -0x1cacdc58429b1128c6c0680bb762b3c1adaa6ef6359f5aa68ce7197283d3d4c6a, 0xe95e67b2c6a46eaf111b32dd14b8f0443e041e70cbf2248c2463bd7f3bbec704, 0xb7d2ca34fd0f670550ce0ad852c4d5c13407348db5c495671a7872c51296b1ea);
  (0xddae855b43b0804eef5626ba19b0872ade9f6db236626d5f6b712d8485de4f93, 0xa865051d205a77590fcf7f8f8086a44b77b601032d8a5cbcfe8906759a502a18, 0x22762d113664ad234f22401711c6efeb3f655d46416925761d89e44b34005ad1, 0x31bb01c0c042acc72f4367029559d26982bd7e3603aa51474a132a14e27fc7bb, 0xbff6c9392066b6554b3b31a19ef1d2befae9edcabe8e79202ce613f11d1bd419, -0x6e75bd72f2e737f867d94e1a758c4e48f6d8696ead71d6fc0f41989f232bcaa6);
  (0xaa04eb321d85a9b24fb59178442a350eebd6e42eff6a4f491def6749dfde2371, 0x32ffd9cc2c00b1bb073c1b9bcf1dd42f5a9099450c8650530be639a7e03f5bec, 0xe36d33df66afd2b863cf1e34a69ca74d62866b6a7bf984bc37350be6ab250657, -0x11e87f4db1103df71afe94451c1b22c76e081f2bb3be31fd62719e497d5070a22, 0x70ea8876c0db7d91109ad91aec1caef8a95fee447c0bb72bfe6c2a3116335a4b, 0x4df770334996f6096555d6a528f855f7dbb45582a93e75ef03b03c61ccfd7afc);
  (0xfd05caa0b09322293962fd72bda2746b5e446ee176ad48f275c84601549d0a70, 0xa4519aca72e55260e0987994706c7fb35f0ef20b151458d4cd5304bfa1982d76, 0x8423b13a44e3a2373e4ae45af40d8ec62f7fee2e0bea944342ad07fd8f35b5a2, 0x45ebeac437d92ae660d1cd401296ec9f142d37be3640ce4d83085b54f6bae651, 0xfa1472a327abb2ca34a84c7393d36334bfb9f5b927013f071cf010e96d1470da, -0x70005c05b491edd77e95642a5afa70210e862be3c95fa543de893ebb335675f7);
  (0x6a8bd9dc42a657e933a8d775dabd30e245c28ab041084aea3e3b55e7ea2d42c1, 0xff0bd3cfe9e6384e4a6f8aea0c49820f8a6235c26b7df3b1303f5b24f9350857, 0x10b09396dcd3b62745a71a1960add3720b9f9357d5693b41c806c81cfe566f83, -0xce6c0a9583d15419ed41add7930b0e067f7ac913746670a1d73440e8dcb61b98, 0x2c581cd0b5c947f136508f96f9dab8ef3160ba4190f3decce4640bc665e50c22, -0x25c2abef233b95df7ece72e6b68b30d9a6d5fa36dd98fd3fc9e7ce820036d21a);
  (0xc4bfc90afac57bab865c528292620be06399835cf740234f93a38c08c4183d58, 0xe3ec00ae68d06e88174ec35765f7d2fcbc3720d7f8222d3e3acbf826c3bacce0, 0x51c3f8296258ab99fddacc54984c16028d8d2aa6c9ff3719e4e3ce8e04c67f22, -0x6673252609999ddc7d64c664351a51697889253e7f1f5241bbdb3b10e971bbb3, 0x97363b866c42d64fd8f72c611beb6dd637a83f05a18fc6e427052ca7515d345f, 0x14d8afb153698c2d1812ec0bdf96360934300298cd8d369f57090cc1063dc72d);
  (0x5662cb12d538dbfabb68ab6d4c22a1c04a1dc88f8fc4a4d327596eeaa32e1759, 0x8fd725c034c0734d49a2d254a648e0d3184738ba4c910c6f7839a6c60ac646dc, 0x28fbcfa879b49694db70b9275bcf103f28af4b1050d980ddf3853d14555b0810, -0x2299661d50d423d3b2d9dd0aed5b5838ecc011b308e9be552eb59310ff11c3864, 0x1d268690c2c452dfbc580e7b40021e9531db4d6dc772a1770942ae77e81cdabb, 0x1c5f743a8dc79b848993a9652816b11fc5067a1a6c91e2cbd9ac8beac917f06e);
  (0x4ea0daa54381eccfd69f5004b8e68145b23b787b79e16914301dbd648ef0140d, 0x9bb191252e3c7aefc01aea891370149906915295af0da2fc1f991d21e340eab7, 0x9a2e6a56b0be01b2bbb74f98e3cd8648f1fda226a207fc47e99c74b7870e7d0c, -0x6c96c9cbf5ab26de1372817fdfae3cd9e0424b4f84c79cab1c0cb73e6471ba4, 0x18266a4ebe757060092fdd3e331654ca9fae38980d21a2fa12be036386ae42e2, -0x3a3ff5b897b1a8336cef74ec00b02d1629c32d4a7bd261ec586589fb52f3ab5);
  (0x56f7b87bfab14a26476110ba5c5de226fba2bb55be1f980d57a59324e9450861, 0xf9956bcaa4a8536f6d121bfdca14367c3a7f407d95b05521825d1c75fe003f7a, 0x7626c0c1ec505ebf8c8b8308219cf1b0d8222178bdd36921aeb054dce24b8904, -0xb34fef8ba79f367a0d67a8c41f77d9061a4104e4c9922cfb9551f14706e3be95, 0x1d8b5fa8d09f54588445fb89fed1b8dad0190d68746ac096e1398987c256fa77, -0x1fe565f4c90000a7d9f7fcac26b057139cf606fb4ca97134002b597350be377d);
  (0xc2b84b6c7a201f0101162c4c3ee483b1fe5c431791db76941874b5ed2f7ee473, 0xfc6e16a09ec446a0a3dbb97c2e5253a958b416f5a142ad914b5c2841b9585eea, 0x48f69ee27e5d650686e385d797adb24ad7ac6c19500b16e93d4f1a1fe729c601, -0x2263f2f3abb760fa63c20bf14dc0d3ac6c7fc5978c40447fed7449c30262fdb6c, 0x941bd6fceb40fab02e9e8c13dea1734e2b4468477dfb45301f780b7535ed3525, -0x22a3e07a02551c55e6a6f5dfa938b332b3d9e7dc2e2d14f7c7dbafbd3db88bb);
  (0xa81fda848da8931d765c3e46d63d4ac5b8287b5c138d74ee6bf6b9ba2b4fc2c7, 0x333c745e38525f4077801afc00e5b153165ca879905b88a2232bf567668d897b, 0xad5c81be95a3c618736bc8769584b4725b5c175483aff1451a466bfe9b8aa67, -0x55d38e69af2f3568650231e779f57db63534939e8f04073678d3c1e12c887d9b, 0x6e69d2c4a08d95cfcb44c11b172101e6ac42eace937f9da7729cace37158438c, 0x84219b3aaa5e2faba9558b94a22e1b086e3eacfdf718b439e12f0b8ccfd989ef);
  (0x4da71139102cb68a454ec12917859e2992226a7bec363ed6234efd1d595644e6, 0x8c36acefc7b137558fadb08ca4eae40bb89792da1ca8cc569ddf117368de9028, 0xdc9fae4bb0dd94923ed4b272c55cc13999d27b4b55adf26716a4aec636b80c06, -0x1830af2bca922b6be2aeb4b0441898a1601fbdcd73ba8445bb030dd485e0f879, 0x178ded63cd56a1037b45125a98d71b57e40a54ae7636339e934f3787f1d4bd5a, -0x1afd543b222b7ec84bab5bd90c8beb14031acf40fe774c9e9f48149f45ee2615);
  (0xf729185a464fc7e3b694afe6c82a7b1619f198b8ee901a92472cede7ee9286ef, 0x28d168b81bc1b9c268f8b95e9e6d2ffd2005aaa5988c3ee25003248eb3741e07, 0x52d4f7a2a77b07f5146a3a4a175ce3613fca612b43d42599c30198eede3006d1, -0x11d502fbe89ef618df147a013635765173e41971b52fcb6374079e6db4aae87e, 0xeea0539702e9864bea265f95722cdb4c055e78f866f08232a891510e487b8fc6, 0x5ff6a97e2f1a79b864c9c76f072651a22ad045d34cc98fff4e9b198e4eede988);
  (0x2c37d19c7cafccff4a1fae28df4e4a4e3d3a4fc9ae5f995d487c1f2447b64cc8, 0xb1607b85c363aa347a726885b5bf3859b8f7d266ed5264145a1e3fd19809b1f5, 0xa705db1c424a0e8da6eb29fcb742aa7bb31a5cbc0785138ecbe54061db2dd445, 0x917003641abd30b4ad1dc45485ec6af92b188392638bd949ca7471631746d93, 0x7a33c3987bae54116e232f62c4bc05bc1c23cc1be1a30c826860a60ace24553, -0x17965dc8ab0b488f48503749c185454940c45f3b4aef5c86870e56e649ebbbda);
  (0x50e04e127d5f199fb12b94118d5a1ac322cb3bdd23a79323113eae5d45368d76, 0x78bdb5713a1af9bab2918547d7295252a37f7c8246c29f72c2e2ed16c0639d33, 0x4aa387075981262f7815edf745310d4e6cc8603aac5c5b6c22ef573b8bf3a709, -0x1193655bebf6db7830f107cbd3765c8d2fcc8284670f296999bd6795c014cb7f, 0x198cf55446861c2c789435938985d42caef2224eab4c5672ed175c39eaff119c, 0x11e47d996c678ad10831569c84e0d8fc162fbac807cc0cb95631ce7ea6dfd442);
  (0x146934b96538b882e2bac33d25141c7cb701e0a3380e3607d45278ae43bcfadd, 0x35518b8b14db9f85ef2119d3382e952fb197ddde9a6405cc7028f3ad8d81f204, 0xccd8592986054e1324d25465d8c4b5b2de82202bec2335cdcca9bd4adcc2508b, -0x9ef04e123c895203f387923c85f389e20586eb2810e3af23e22f502aaae37edf, 0x1a09b7942c1bcbe4dc0d325cc598cfdceb0d0e2ba2e8932e5407aaefb45ecd1, 0x5602885f6a3ddb315cf5c6b5d872f53279e75cd03049c6b7a648123fdaa5f31);
  (0x2b7438e79a4f5a2430c8c84dd1f2fa7082d83b781514c1720c9f00cbed3b852f, 0xba4476dd3bee70dd3975db4565d2652178009a57cdde3cecd44f17a464ca05b1, 0xfd75d93e2a101a79dda7e6d101d4b0367a628541713381be8c3a901867549c2e, 0x243a13d27aea33eeb856da774235fdb0bfa40f8ce04de8334df8d6f201e06446, 0x7603fe16c60a53c68d7bcf3d9ce90f423374799907f3da5e4519faf68801798, -0x16912926d89984b420e514e11c8b4d1a07bc4061aede6df45e6d845039a9f244);
  (0xa032eb0660f3d2a6747dfec94e068b6787b6d2dd4450f2c669c86e2770df6400, 0xc34ba389ebcbb47b218f4bb20f37d151f9ad7ade205ee5562e31952ceb7e4806, 0xfec9c82b32dfdc57f4cebc0d13d46269b1744d8ca317fde456f8d42f982b3605, -0x28609fa6c84e9c0c8fa7d694c3bbba172a029c9dbd2a4b73fbcc6f327e511796, 0x643fafe89f735cb6af863f965c8d5922356e4dfa6def9ae37260f4ed08a7bf1f, -0x5a6479c773d7ef40d6eff59e27b0d04bf3f6e032e6589b4d345cd7a9823413d);
  (0x4149f77950d05b8192def7b6eff59801d2a0566c9ba12cb48d1a7d1728e28953, 0x75512db1b8a2301dc0d14094b45bce07b92b9783cf8a8621af6a162efdd62c9a, 0xc9e3a5ce135fcb0cfab3ad40ee1b35815f6a404880973f6f045419294ba5073d, -0x13cff4123152c1ef0d5a70c3dc06f42f8387a26e9216ec7a2161f54e04179e232, 0x10a6a50aad7538bb8b8869a1140824611bd0f94cc42daedb9ae6deacf482202d, 0x13e31fb91b572a3281030893d9954b04e1d581e8e4d935027652e9216d78dede);
  (0xa59aa1b51f8e8da51bb8549d8fa642f24b9f7719a560ef6e35d38af4569e09db, 0xcbac422272a5b598555ee9838c889ede0111f760dbde6288fe0d067ffbd0b3ac, 0xd3bd66fa83862fea0b75144273cd12810e847b26c1b602f6e0cee239b7cf3edd, 0x2dd121c4901e93929c20077a595943950741e249ea453c6b901db9e61608661, 0x6b20b1da6ebd0bf03202c4df6413abd2f5b6a3b41d47a94d5c31ffe2a2649875, -0x37dcdd835499a19ce249c99504d83c15b3e429e6583e588fd6698bee1d7a3380);
  (0xac6752ce2f6319254eb10cb31a6bb274e610b39437e181f929be340d4c1f8c72, 0x32598726f07a142d93c37d975645be29a85fdcdaaa86c3bb0dfe00ca39e131a9, 0xd14bc7ea2d0e08ee08c91b41e5b52cdbc1c8339ebf27656457d529827fa8ceb6, -0xc8ee809ecc18159217ca817a84cb092037b9e5d0e75c0626656f790ded079ce4, 0x741b00f8cc6007f4262123951ceb560a34f0aa35f58de37cf1bfbdc3cd3782ad, 0x67417782337f40784d5a964fdc05295a5ac3b873c82cc56f78f0924e6d53f0ad);
  (0xa70d161b901af290724c7685d315050f176233c833142e9b7bdfc97473b1107f, 0x145ed8bb3babbec4512f57058bf953fa84653c92e870f83fd49f7801feef077d, 0xc927f09b051fd0a7a11b771b0443d1b59e995731aabeb925c21ca6140abd1c11, 0x2e9673fc209d35e381ab0bb73ca20b256ffaf217331fa30124d1ae66894f3ea1, 0x6d02138336b88af17049b03c8f3f83b6512138b9417ffeca60851db600a0a62d, 0x13901019e3b89911fdcc04fb6b19434d7c997c7a1547cd38abc3ccdff7275b83);
  (0xec229f70507f0ca38f3f7af43488b62d19571c14a2449ee3b03d20f7eccced8f, 0x8e7c6804dafb60aea739a510ed9175885e034064aa7561fcd3eea29927847a61, 0xe6dcc029a6a117dd3a129b62b6a3e5fcd9e844435b9c59df744a366869b11e67, 0x16e3b2dc672064c566f5dab48ccc260ab0affb59427787ebb5a84f0e277732a8d, 0xd9cfdaa5d18c565145bcf990e0707ee5a245c85d1b75e26cf5d0d5707b285c5a, -0x70a3c412d5f7d3783005b4b09685f75117a23ed2266869091e3a9a36438b686c);
  (0x5373712ab93710af412c924beee6a4eb7ddf72eb877d13040c2778b10313078e, 0xfd0f7f968e5941d82225833b2b09f2f759dce1f348e316b7a14b11d9aed8f289, 0x9310014764b2da94e7a92a0e77c21d7d40a3f9457ccbbd713d7bc6295dc114d9, -0x6c2f5046bfb2ddf7d12371d85a669071ba3d838cecff965a52fe8e8f39cfd61, 0x1b340f709282daee8a8447e8e18008b33a332adc64525d739b4d852167a01b5e, -0x240b8d9935244617b560233356f72eb486ac6e94e6afc666d7b2749f52a89990);
  (0x3e8fd2be29758dc10914ca0465b146ec7611762585f8ae1be6a962946c693815, 0x3d3f4046963c51c45dc311b7a736a119330ca3ad22e91601bc1e3d372c348261, 0xf77bc21a6c2d757ee69775b746aa4b043627b806e80eeed168ac10a7858d2731, -0x2a695eabe99c124611f8e441b47293ac8a746ba65c89a75b4c26a68040292b5f7, 0xf49fae13a03cb444bd431e61e4fbb0b39a93cbdc135494cf679f78a78feca9a, 0x2ee032900b519fb7dafaa4bb057ad4af8ab7a35903ffa8de4ae74e40f4081722);
  (0xe247492b8e5866e6ee18fd530324052531ee190c1e06808627fab69d0c9d513c, 0x7ca9a7b123ccb56ba2fa282cfc90047b83ce7191205baf5bc6d53a2db1f7da9e, 0xb0c8088eafee883df4f419c30220eff64d4d05d0341d1250340a87bcbc04613d, 0x3579184bee7c2a1748ac34fa12bef63a7b03b4b5c156b50dda890d1d6f7b9b33, 0xc801f10a9266e9505c04a7306aba0900fc98f6ddd3df8f466d4bd754a42f1ad7, -0x380d97eee12667b783197fdb60f2dae9a6c55d9274f9c1595f920ac92c714766);
  (0xe015f29fb3a42841b8433e747cb4e0022325624e5613671d29ede5030e5091cf, 0xd3e20ddea64b43c9d5c41a6016a69cb055dc8870adf4bd4a5d39acd003e0f7f6, 0x5e8079aece6171e65d1645f5e3ec9538799e90cce259d01d9bd97c1f11269593, 0x7f5dfe3a8ad4a359d7fac41b654999c708f33101135fdb8cd47aa6cf601a0b06, 0xc4266a792e8512a49d5323e5a12b881c63fd0fd89afff137c87823b015914401, -0x4c58d3b1edbd49de44d0ee0dce21a2275127e782a891eb30715c34469c6a7088);
  (0x634b7366c6e4bebd20c32ab165a2f4abb15ba0209b9ae7c45c2ad58ea9c77354, 0x6bdd2b3b017144d4e87cada2b03f36790e569cd0d9caeae11eb287c025297191, 0x8f5d6634efdc4a37265019bcea5055db3a203cb40f05e16bd81a47b62c6d51eb, -0x22f65ace3d230bf7c309a74c514898d0262392aeb23571822741bbf366430793, 0x2683717e5012f582a654b2f68a1c876f1a66dcb47b17ed313ba5a1234b6c135f, 0x28588bf7a34422dcea47dd10b5567bf81102c13bc8fce0c36af979c1194df23a);
  (0x8a1f096fe8ba9a6ce81aaeec7537737c5b92eaa6051e1e4245c7fa742a924fb4, 0x18a70863f2f053b022b6a54f788e6b420e8386b4b0c0a4bd0b71fedc557a92ac, 0xddfce9d809f0627465653e001877e847c7843e02421ba2f0ac7079f56ba2f048, 0x125b91bcc11e14802277ebc37d6721318bdac51748162a7385f6250e688a62fb, 0x4a8579eff05c9af794dd4dba9b2d56a31e84c11af80de277ce75c029084490de, 0x2ce545676d34a5770516bef7e356fabefd0f72a70d199fba2fb58a22ad2d41ff);
  (0xef00db3e25dbe969ade09388984cc75fe0aa0e5fe7c00046fb16334da3cd2988, 0x27164e2777658edf4d5455b93d864dd1b5b59a1dd1e6f7736d5c6b51169256c7, 0x693989ed1b577d228fe0d54a002a8cb626bb977c54b396a5226ba813a2a37cf, 0x5aa52401cafc66aa200b66fd320af9b8730f01fdd2c8c4b447a20a370c0ade10, 0xdf22995ec67401aff02280893d767a06f467e05b827b9fd24ba19f93aac8d5db, -0xd79ee7e3a6d155a932694ff34cdef5c205998553e11ee1ec9f32781648c96c1);
  (0x19b813c81558c2172c424ebebd74d5187c64a8870a3fa493196d20bd2985b56, 0x2b85b15b80dd331e23c173a5e9950e40f76ac65b1d8618373ed0a7cd8908b018, 0x7387c7e789213e526d6ffa352da854d7ce553520d3cd5b0748bd8c1a4e0043f2, -0x11d244b4bd7681fbbe942db092183cbd6667ec63044d983c04f6aaebd1616231, 0x29578398551550c113af61742d4f36762ce9747d7529afef532fb62caab22, -0x7211171e14872da56176f02201d52771bde8cbe7553ca58f656aa5bd516b9);
  (0xeac1563bcfd888de09fc7fcbe871bc562c4b70f1240a8846a900c66fbd2675ca, 0xf91a342f3e683bac39d6ba71606f586545e1e0c3360f89660a118c9f5bf94e3, 0x3ddb80e975be421d1e224fb8b2af83189f9cf1d3fd2168708c44198435a2d906, 0x47bae8ac4fc5796d24c7664dab3e3906200a2379a5cbaf05b7bba0d13dae78e6, 0xd74603a87b337c533b90d1e60aa82bea15f99edd9624330e0b0985b514bc8cff, 0x19a2314b96093d92107d0b7fed305a1c73f39c89f66a547c1a7e21cb68bc9146);
  (0x8474e018b6ac5b589f4749e1b38d6adc60a22c9eddd99afdd8e8d6044a4d4e98, 0x87a2ee0242ccc236378a6e820f80aed4ce33b04584c18953845750ee09c1f7c9, 0x336ced8552f14e0bbfeab7840cbbda7d1b899ba71325e5c485921d399ad63501, 0x3d2bac35106420d10d12d2fd78b403bcbbc6b84d8e18ac32e18b2419c4cafecb, 0x4488bc7556f28c768f179a133684e7a8061dbfd58b882f3703a6c410bb45e11f, -0x3e1fbb7b3c12011ec4d130ac8214faa77bff432818c5376ca83ee8b0ccfee619);
  (0x8df6afc453659936eaa14ccfa4cbd75a49199a5a40838876176e6da39d169bc2, 0xc93c1b00bdeb3e4962dca57a3dfce74d11824db2f164a366f266f8cfd67e640f, 0xd790eaedc41b3cfeb890bc2a078df7f8d531aafcdec7141c503aa103ffb3fa50, -0x9e8ea28e492775d07582af3deb4b499d488977db982c7167864906cbab322041, 0x4eb9ab5489dc329daa37572805c72f904035fa8bf44b8d9f99e4b55a46b3330d, -0x246094036ac134e9c414653ad4d4cad513b44ff7c8aaa805732a2bc175a16f33);
  (0xff5caf8da8deb38d5833f1ef0047eaf5331a5e49802cb29843c99257ffab9b9e, 0x29b2a9955317107bdd2bd03faa821da45bbecc9cd72df5c4b5a1d8db76d14d80, 0x377814656cd36d9934081511184dd683fd878dff026f84602e0796ad4d6e1653, -0x4f4afe7d0bfdaf08c1ef1de8a5db4b050e37ab17a3ffadca491b6e81239b1c46, 0xfeb9c74adca005089180f6ff9f2cdc723552ae695a53e7064bffc28e614e8133, 0x9f23aac5fe7c9f95196efc972359c17177312b15d1391b5edf5452a92fef8691);
  (0xd8d4c3fb404a84f9a0146faf112eb5f7b8482cd2d86a4736dfdb78f4bd319ba9, 0x79c59c014e469a3f7f63af79475c7c6244639bbc0bae6f7ffc6a3acbd539f5ab, 0xb59c06de63f2084c981f3ed26e8af1b9ba22afc2db9205594b034224261de6a2, 0x4996b134763594916e231c0b03d631ab7476dbf50635fdaa5bb7ec05603b8a4a, 0xb7a7bb8d2aa8f65a246e01dd6698220e3ce7dd307da950cc2c251b207899f1fa, -0x43d28988e2b41b7c8fefc4a60a1d5d974e735962ca541f918a09653e1a71cd28);
  (0x4026935e27333c9997ed5080700d1fe587b0a10e52f3668cb1ff2e53bef165a0, 0x2b4032a979726ff75c61ea2f5cf1515e2667d28b573ad363f39a6374879ea326, 0x64f2a2685f47aa90879d53c31dc75261ab11a3ed3b6dc4d3e1ba31b9ff70817, -0x52c073301d230b4bd976530ffc4248f55eba27e73767111d073c4172319b8ec5, 0x10134f7f2862852870c94eb23ab7a54cff22834fdf2621210a0e34d8b7fe8dbc, 0x13ad2f5714bec9bd0896559863c59590abe8fbb92a93369bb6e9f92435df0c49);
  (0xe91116989d2c29ba1c402a42220bb6afafd7a1d89c0f7cb6f1415f6b30d72782, 0xc846dd9636a5cd2c03743b9a02a00ca1fd959147dd8f97c305800a9f73dc490d, 0x58497a09399bdfb6664bc9ad5be141f74fde899f7e000e3e596efa3ea47d283, -0xa6ef1000ebaa5e8b8b92924d0c6e563aa2e77d2392e0b82fad3898a1e7b8170, 0xd4301c45d05dd9d0ee414a1b37a4f2b9c51dc488cdd45d74a929d6b2f3858a45, -0x8ef58cdf00fa52a1a755d784880889d9d8af2d6c7d99f14720b35f775653a198);
  (0xb9431bd34b02aced50f20c6257e46301867c5a638cdf4f97d6beaabeb0b9d37b, 0xed9634a7e20eedf6befdce7ff76d2fe378c8876d9cea93a37093eff21b0e988b, 0x95ab171125c2f49cbef93dd1c70b5b9f49c59519e3ecfbc2415bb714d19bc92a, -0x38d534502c0e9ed661c69ee8c3d1d68f85f1e33d4994ea193581d81ed0529b54, 0x86120fcef609618cd013e4395212191921fa18fc11f719e13fd058581c9c0367, -0x1b001dbdb801182f34cb99018f64476ce0251724c140eec01827caa3714c9b79);
  (0x9b5ce7f66fb114a71e108c251df1485ab6f06b1e5babf4062feaeef8390f74b, 0xf7931b71bd6a67e7fb47973633283eb6e0cc448efdcbaca935894ff325da38be, 0xe80340c413fe97d7e7576ca033e14f0a4e87411e9b4578a6a447c3f2a558aba9, -0x28a23c3dfa4321156b8a4c3cca96fd51f62de69e93046ca39ff758ceb6a4a8661, 0x5e49a29bf68f6115a2d9f96fce7c7c9da5548e6b38c3b667f5d15d3443c9eb, -0x60fbfabf9fcb35895fe2182f70e5786d1ad2513b16d8cd7380ca355ba12e7c);
  (0x39823a814982236ee6a11487982e893d758c2a2220c8b90ddb245fcf7db25e13, 0x5a840398a1e667ce83a5b4dc189e4e8aa986a00739950f11d9ec8a41a11dc185, 0xb555d8106f30325012d4ac66954c2c56b2bbe2a24e4a4409fc7b2286c440e2c2, -0x2660a1a491f529c433129affb2181ac322c7436b27fe21596db4e180f4df9a3ea, 0xceb404d0b69728d81a7675fe8310666722b9e3c623d2d97e4a63530c9584218, 0x234841de307bb6e49d718b2a92c00cce5973cede4d56201c8c13cc25bd161030);
  (0x3724c9e4be4072950bfe2e6f6cc5d9a65ba15ecd671edff008bb8977b40d58e3, 0x6a9c9affe752e09b0fffd6d69f00e9319a5a8be1216cdd204b2b76adb7fe430e, 0x76f51b82933451a432e792a1d7d1b68c83d45826099ecbef8a9eb9835b6ee2ec, -0x11e442d065be4f289bcd35347a5fa7c30dbc31e1997fbf8e29fbb375cd874ff1, 0xbe0d409b14e3280e93078122d5dabed17553947e29da247c5f54bfc4a0d2e9f, -0x37798ae2b2d4c69c0344cf82d70fc9598f25f9f2b623defffcca2f58086e127);
  (0xf5f3756d498626e2c95941ce03d19247a0006ea31ba8a9c5708e9a6ed184b3a8, 0xdfc437815a4a0c1d022af30de49e99d92fe49857cd1eca852f3c784c62aff48b, 0x97027fefbb5cc1baed3b037ed1bee6c82bfb3af05bff706d50d7660e92b6068e, 0xe89bbc5ae19d11a8b973e49571f06cda118233727490f137f01443f150e207c, 0xec4be64b52116ef838d5490c5eba886c9dbec3fc27edf1fe29e2e47a49660321, -0x708e531e8ff12a13131f07d3e3b53bef93d9601ec53b879a294ec4423003531e);
  (0xc693b7be868b7aafb474c7db3a3828e044558002902955a4dbc8591b409d3d1b, 0xa7803e7c26adf3e7091062d77ebd9320ca585587009482bf353b748cb1d43c8f, 0x8bf55d7da401c5e21da31c9789f106746664706b5d863b3d4933fc914379e6bb, -0x1608029bd13b9d09f2095164a58642607af9bf3099d44dc03f9b5f440c3ec4a39, 0x9a08d57740d0381e18158481dd6bfb029f6eae1cf542d51775ecae98d547670c, 0x2ba50a047aef23547a75085155f0d9b9a52fa2729324e89e0663e1610712c4a5);
  (0x5b0807dfc13b599d28fc2aa490479cde20ec29a0f79d1fa41ba2d44364eb164d, 0xb0071f18ba01f069d5b38d291778e1aba0bb5665e27071cfe93aee8761a8737d, 0xf1219f911c2b584a6c25e50652ee81ea244aef982b8c1da80a02581445dee978, -0xe5407ce45347e4a350fe922a2e6ad44776ebf3f13c6b1c9499a02b213314e8eb, 0x205eb5d9919a458ecb1d1900401efc196b8a6090b6ed786609aec01b908cf8d2, -0x3083651d1550f35f438dcee950ef07a96c70503b0580b6eaff3783e8fd6c387);
  (0xc4e0783865ffdb796c466718af80a7e0cb988f8f821b4d84e09287ee3f8f03f5, 0xff7a83c725783b4d5a8c668a775c1c75c0ecb0bdbc1dad3aac3705d5c7269b55, 0xb73df9cae6b7142866c560121ba82c2a43eebcd920c2d7ad7418cb7b64037e80, -0x29bf467549b6027133f09164cc45e8ac79984fbe53ff7f5ec88b1639fe2e62e7, 0x97687ce8f75733dea89f06985ee29bfe41386ac24c2188e6bfad6dca13310021, -0x3d1a035d3afc50262e2e56fd04cab32fad0976fefb0ee00b79d4224414852d50);
  (0x1b7ae9164f9be251eac12e6b7c1ba3e2ee99693aa9bc790e19af19181d90cd41, 0x1baa7fedeab751a330c20e249e67c8c5b9c315f3f07ae334f585dedd486a00b3, 0x1e17ab239c5fd28dfda0be56ae22468d3fb2a3d3b614999184c3bc0d0db7fcfb, -0x2d588e0082b7fc333cae0e511899849672d0089ce68c27ac9154d285c33916745, 0x2f3282db248612c871e17ed507dfe95bfef42264feaded6facf79fff49e021c, 0x187450f5ecf14d41d5875b93000ffb063760ce8bf91be6a7e04f7630c4c19c09);
  (0xcd2cac7dd8ccf1646e4a621d7a299a9e0f2fe2639638044e8577fa0f5d91f425, 0x48bcdcec6db543bd7c9f656e069e38c762a97e89a56c7e36ab379ccffc928932, 0xbc89bb8f112699cf6ac80307e68ecc935578d9590a00da2b48ba149d2a765abc, 0x4b665a71685cb674d95771274ff7753864cdf98ec9c237f256a158d433bf1764, 0xa470940d4cb41a3ea7463667ae0f980c028a5bfd9c929d8a11a3b6bf12574ee4, -0x241f91fe4941da661167baaa59ea0185ef370e6c7e361df3512834f478b4848e);
  (0x98455235999e1e64ebb7e53853d08ecc54f26431c221315dc79c2200f1b28e62, 0xf0b3eb104d8398925ea1e23bb396297c3be5ecc762e66aba4e1526383f323ca3, 0xebfd6fbc4158015a43c836fbcbd8cf0edbe24ffd6f8c96ad1e957c224d08309b, 0xa2495341881700e840d1579b555d27a1c266b964903c253d8a2287fd21b7ee9c, 0x5a92646511b6f4f67d71101e06d26d084f01d36159b804ad25862bf93a02d913, -0x63e82bec6a05a5f8062ec381886820ecd2e6d326afb71d95a662e43347596bb7);
  (0x352aa3669ea4a9afc9b01dbf934cf495b6147d51ebfd599bf2bc91057f6f6211, 0xebadfa67481c83c43051088ba89433859dffac4a0159f10cfc2236c8912bc903, 0xdf95d23ac3f14cc23b715b7cc83e1c347d0bb80ef85d51294cc87c7efc32aaa6, -0x18b4a4a7d91cab3ad38a0390bc916465a53af559845e2d0fd6ae827133d8ffa8, 0xb0aaec283a81372f4cdd864eabd3c221b8b2491256782b04c3133bd488a9e8d, 0x10b1101458fa1abbf3d339502e136bd2f28ae44b013e52810286846e07dd0d1);
  (0x5ca4695b3a293d70d533ec2967309a049b77e935e713bf016bf8d3aa8e2e8691, 0x11d7bbba14cd0892f1caa88bdafcad193d63d33826bae8f37566b03afc72893b, 0xbbdb995104e8f64c626c8422107a6afc5998bfc71cda39c2c3893f2b7b189a8a, -0x1e917c0ca300d0579960a69785694d35f5fb3fd16e22576c15d5c35c44729f821, 0x21869550ba0c1f380cbd6fdc5f59ca0846198c58279fb94763dc4fd38c591320, 0x4ed4e56ce5c06298cc3fb129602ce92b3df340d21e646231da9298d8e3ed6868);
  (0x95fbbe8eda94faded0d0aea5cda033efc6d22a7200f904ca79fb75617324e8af, 0x32abae154a169be2822476ed1e837893e8e28bdc64b39db396374753a0d79ca, 0x621c0a80d91cdda24502218b9cc6ec068446430bc38482275055b7b97c59c04d, 0x3cdf6de535c679732d12bf1722a137f7b6afdb3e7943f8420092daaa41e8d4ab, 0x57df0361846a6857ac4b839f685a5e479bbb2b701eb696eae048c26c2b722e3c, 0x899200a937d023055dbedae1b05e76c3bb90fbbaffa416358af4b2f0738b918);
  (0x8e3fa477123b584f2d50b6f126ada57e27a8f2868ca91f8fd9ce85a1f920cf12, 0x9808ecf7beec7107c9f854e501b955cf1932e8aa4c7c4f81b1769b880c253b10, 0x1e1baff0353575305f5c273f355c74432530749d1388288bf2a1fa9ca4e8d220, 0x6ce9ccf9e6bfe1de1e4bba3b96ea4e61687323dd0c229286c5b9840e773121d8, 0x4f0aaa46747d95eb4adbca86125d7f6293c4dccedfcc9f8a73cbee870d1e3360, -0x52b8421a58738d1aa7360bee77b518aeb3421735bfc45a4c9591f6cb77a72ef7);
  (0x3b49c33d536bdb2e909079c762d2053f34997113063cf72adcab7d7ddec9faa9, 0xfd688f03cdea65a132bffaef52e13ed3464ad04781006d48fbc822193b917e49, 0x8b67caf6ebae54aa22940dbe7b2665b0f7453385432e945aa7af332a458de381, -0x100edb051ee4d2d7f9c4c8cf8856bc51ec484e1e6d900a6b90c0316c985a52740, 0xdbb153f3253c651a3af8c857ff62f4fb90a101dd5eb8e733037172174c55158, -0x177a3fee1e26516302ae122cc6f2334c858a4c97c9a24b822c746cf9993e895e);
  (0x1f2ec02e6466b6d8c72f9d7f5d8ecd7033ab03d07baaaa43ce78c20480d033e3, 0x2e7f27e454d8593c574e5cb89b99255a11b15f7b6d98582bba98be008febf717, 0xef2180a04227160a5e81dc2fa77a744368864e39f866f8c295f870a8bc616b94, -0x1009a652d825f49c0946f45f32f4861200532b87f03c4bcb1d1c2658d38b72f6, 0x3cc5b14dd42943484b4660006bebaf4462c2c2c7808b3014f40777acc84dd7f, 0x19340cc1e3bf4444424ea7408097094ca37f75d55d509af407847963eac5768f);
  (0x62c33e0b9150e0608b29448fb56bcef22513931a622e8631b498ae54b22262a2, 0x8b8e7d5a90a242503d8b4693ff8770ef129070011b32e57f65f20ebe996f459a, 0xdbb3730bd44d388e6b0820a4d5fbf257cc0de8318600c5b3e2cc4660d9073336, 0x9f2c92f281b0895ee9b7e545e27f3ace6ab46654a73c6f1a4e9b1047bdd09e73, 0x261a10686feae7e8b9be5ccacb3b3e4f00b2cf66700ec5200d96cac9edaed604, -0x23e6d7f347213a58d059681629862c5e7155b0df7e39bdc4829878f78bd26b50);
  (0x98706a34365fc35f0bf58006b8086053e00baca29dff996227401c8ccd9179d7, 0x1d191a0947f67b870c31c0f20d3da6b66d4fd0b5a49a32c5a07a776e6c734262, 0x3b2a3f3972f2d8e46eea82d5880997bff2cb652e3faf208e96189284c63ce0b7, 0x2169e99dfb3766802e0239804bbc4344e1e88f98af765255ca9e884dffa7e3b8, 0x5ac5af7b1a509379419c9d9ad8dcee93530ce377f40ebe48872d4e16cc20f4f5, 0x41c63426d923b297be645fdbde311e0658ac1f91ec636745593a65a42a76cbd5);
  (0x754e3f3b8b39783ae1d98f7bed4a33a9cb83a2dcf3dd96af1ed15030279b19e9, 0xb7da96bf13c179bc9a9c90bdb7b6c1ef9d555e6799bf4f76750b6567c651b465, 0x28ac804031a2b0068154809ef06a8f48f6ed63f5af4c9cd018b66e25f5de12d1, 0x2c4cb1aec2ba87180f1f5534683aa8828df301406b99602ceccf3daf0ed2880e, 0x35c09db70529bb4ad7b4597e9943a45422575262b0af898c494c24ed3f796f98, -0x46e9bb2cb1fa258e9fb49e33ff6951071c6ad1b1b380f53141bbab15f65f812d);
  (0x3c068fd60f94049af681c73e180ffcf374dc1a14a9af44c5f810584e384308e0, 0xe0de30e176e9157fe2531a74ed6bc1578e41cf851c0e4de0b26ec0a4e00d106, 0x9d02684dcd49f8739bbf58571755cfcc2792091938cd923db7c2d847dc197ab7, -0x1790bc895f66a392017f39eb556fac070b0f056bd6c44829cac7baec800ba1125, 0xe1313976626f57e445fe4130be68aed47dc906c5fda3966ea090120418f9cd0, 0x27d05451051c973b80b47d8637b78034cb1895db84f42d5d29e92339277e9de8);
  (0x8458ac5ebc5a27d0fb0bcad02e3c633a74b7b3f75d9026b0baee96d5a86e6447, 0x9a5304fba67910bd98f4869e07c56de41e09209e665ab15f423f1dc1937ae2a4, 0xa90e1a01bf78666966e55d4e59a83440d9a4565bf11606af99035611aa33bf9, 0x37ac50f5d5ea4c9c1c025420723a3520935aece4948bf0a7351f9746d0bec713, 0x446b9078a76de732e4db5a4d49d9ec1e79ab707bd56a107661cd4afeb2d22fc1, -0x48843bb482ccd1ab2ea829d1c9753fea6091796193bad57b2f56fabac4797c1e);
  (0x43ad50f41bfa633e57f69e14ee4d5a7bbc3bf51c9146b7eb88fdb7222c3eb6f3, 0x8bd000916fdca7d9bfb18caa3927b9ad205bc3c4a095b3ea5ea249bd17556262, 0x31ab9e17c27df01455374bb56fdc79217dd6c1b9af79b0f2665f6b9a8429c65c, -0x11181d2278a268b52d3a3e6b3d34645a3c8abb8dc71e94437c4d056228513e2a6, 0x11e42db64a2c5a9e9ab0e5b790bc18fc4eddac7f08c8b176e4368da0b0c26231, 0x3d61d488fe9407d289a00c04abdcc3ee494406d8170bdc7b5bd20df013c037f);
  (0x6e7ac2b4002d16383bbb76e19c46d11e4943d406572749ca6437226f5ed5e0af, 0x77419938fe9d4d183c6ae247d7767c8255558f79293368541e8f28ae2d59db0a, 0x8c27c4622729de14aaf233866eadb3a459c798d14ad351de9092d7dfd8f31e7f, -0x7cc3a5566a5b4828ab1b87e91f6f44bf8a0110764f9f7470145371ab1fbc22e, 0x2fadba30d7cc38e616028a6422d5a3daa40fc5065016c44d73241a43f6e09ef3, 0x8df0be79f448002f5535f09206403d2c142d721ad9da3e0950c63004d676043);
  (0x66b7745de248b97277a5615ff0bb462cf6e3c3e46ff057f7cce290d68ec3315a, 0xb9e371aee5cdc7090ea3329bd143a940d45cf9cfac79365fc9e17a81dc55ba05, 0x2daff17326a770da5f89bf10782385d7e0275a53616d417c7b35522644101836, -0x36319702a3e94df54ffb8bea06f628b7c0f2a174b196ffb9c7a4ef5e2eb94020, 0x2936b4326370af4071e9cdb96b610a98c1a4d623b0bfb109b60bbd931bd06b65, -0x1abc3c3a7c2c72b5caabd32443a2bdcdf321ebed3a8f6c6c2838b448e657ed7d);
  (0x68723255cb589f934be2b1545a295f0260eea2b5de3a4a9e94f804ebd5eb2ac4, 0x7510b3cb6e7dcff96e4ccb661b959a00524dde58ce83aec00ac8e4d627a6da61, 0xee3bae36ecb330bffbe41537b2faee168c6be58f1dbb5dfbcfc3032b6653a673, -0x16fa7d64cd0ae03aa03e8d7dc3a3e943c7cf22733be3d4f7654d70412a6169a55, 0x2a9cfbd69386bcc5158cf3311d469d601b8ee2d14c0eba8f570f6b7d171ad06b, 0x1c145085317e07b9bd0e02610ce5204877f4d96870de22f41915a8c5e7143ec9);
  (0x75bce0217ca8b8c758150ce70761406c45bd0d802840e0d7d93d29a8a0b8b164, 0x4b6701f85dd590c9fc6a1b968e883c977ae713046adc38de3fb8dc991ce9c97b, 0x230d4174960055438eedf28f9bf2fdde7cf39cef3460e603d29c88d6d3a34024, 0x3a8945c019358723501a489d0ee49198b962ebdad479d6a4369e0f2c58c9157b, 0x36263038915bef3e3edcfc73d46a862cbe89dc68767d3383f3cbde825674389d, 0x13294b5dfc5f62c8ca8103cc0423bdbd5ca4886b1142a2e7be1df8fc46db158f);
  (0x3ef132cf7d12bdc105260187684881700060e59cdd9bfb36f8b013e06b3db0, 0xb72af3058b1fc76a171c9925feb71d0da742c0a554e36cb5a86f7a08239dfdc4, 0x16fa2343491e387c6738fe94495c3b9d22b3a03496f2c3512ff8ba401e3c3bbe, 0xb64d3d0dd734308028c3d124178e61a2f3d1c797e6bbb0ab0130a75135a64, 0xf79b7dd355446399773ad235e573ee6416cf16261eec1ec932edbc42127, -0x1a7efd3abb8aa8f39cc281d025a2626401f488b36775a635bed530fbbfdf8e);
  (0x5e17c94bd2c6d7b61037cf67c54c31856932b27be78c6d84d13c0df435b0e418, 0x2124fd95be7ec4ec90983d29978ebdb0a0be356a18f4758b91957aac98c76b36, 0x6ada6688a90b7190957bee08838adbd310eb63ffadd0f2f4a62f97afbe7f9a36, -0x1784754f98cb618a2ed6b975b18c250be883776933859d1180e2401b0479a9e70, 0x22957a0978b20d95e36904d5b3edda02029b13b20e0d91910b2465e6e5ab921e, 0x3724209f37279b27ebfec82338d5707ac232e6ca3ec25afd00942e3750dbb364);
  (0x11852c88e53cf13c381f4f44770421a8edeb1a2aa5ce0ab2a4bac0e9828dfd5e, 0xf7bf95cd74247863e1e94cead464864357e16c6bf35eafcf8028c41f493813e5, 0xcf2b7c5ed5f782e85fc63fefe2e7410cbe3711c98b1ef7de08ce1a20f7f7ba94, 0x6104714bcfb399a19f477b835afaf551b766b76f630d8a60dd2bfd0060caba6, 0x132f5317c6fa15df8f9926d8d6ababe3c5539e046780b78a17f1c5393e4ebff, -0xeafe7c21c773171ab63766d3afc89acf66e92423286d2651f210bcce841c9b4);
  (0x69b6343cd46e3261cbfba536047eac826a6e5b069d0511ed854203a27dc2d6ad, 0x2675d6c93721ea437088c933eeffde4e66294b619ce91f85ca6df32f9047e5ff, 0xb7966ef8909331eff1091208954c052bda348b7b48d110b3c196b102927da5f8, -0x2243134f341f6fcdd56ee6a56a2410a3e72eab0d50b36a9ec4b3425ff30eb43ed, 0x2ba6f888376936c4e4c882ec61601fb3cbd6ba99c45313fd3c0e3dc42bca26e0, 0x566c347b3fca368f1c64d56eb9edcda1ca894c384821a9bdcb5ceb5b2414d3be);
  (0x1d3fe586613e4a9815c3ccdffefedf1f536fdfc332940ccc5ee0db4890ef4566, 0x4cd2114f2e8603244ab075376d2d00df0062dc86e2d780b81a62b7adf17444c5, 0xac847c3834db991dc3d7dac3702091ae1184c2689ce0fc68a932d1fff9dec08e, 0x189e245d811841f36c95c4353643810025bfb040467319a314d6c917d30a1bf3, 0x35789f337f5aa128f6384a0236dabb9e0dd312654123713fc1acbb2f9199cef, -0x46205b83730f89002d18f91140e0c33f7c03916946656e5662533b1794c22b6);
  (0xe913bd3cc40444a7a62bd51a89b61dc8310e47f94c8f56737a7166af88bcf547, 0xcd559700b304f588f65ddeecd3cab1f2357770ac27c27f0fd26aa681937b6c0, 0xbf59d2a1afe067dbdcf248e6f38d5f4a7753077d0d06b7062caaa1dadd5cc71, 0x28e69047f74bf6ac50ffa5f7881a1b265a257a119d0a299ae88038f585823495, 0xd434effe3fb7a57622d4b7917becd4c71851025c290a5a2b18427755d84f39ac, 0x3a41f26880b20346122f8e2360d7bb2edf8876460eb5146893a447d42350c9dc);
  (0xf839838e5ea18c0c3efc4d8a88787af906a6abca84884bcf498e6353b96e4ae4, 0x717f3cb8f9a9480973abd9d07b11a6af00e5f7f782df9713cedaa351dcba6d9e, 0xa8c848d088acfe8a3b55637da8e7d077f90d13e7c95fd67430386eab5ebe88e2, 0x1543299adefc5f87a9907d25d014e4e7f4248c7c82237f6cca1d36ffd6b0cd38, 0xf0af7bcfb05a274e8b03d16d79a1e90923b94674cfeb44203d4db955a4d628ae, -0x619b31bd2d0295b55c586085cd4103f9cacb9c1d977868ca00dbe2c8cb9a87e5);
  (0x2d5c87588d26f9c1cabb2ad6143c9145ca8a25067d0d0a1d1a941ac54f1e9ea8, 0x77c639032f4393edcdbe84e3e4ad619eac36e0145d109daca12ee5576459c9ab, 0x89fb17e7a23bcc1f51711fef97bb5d9566535600b54def4772a109fc42d29291, -0x5b244c842876145e9336b20441b2643d8ec5d88a3cfac8d9eea2a23838137fd4, 0x809a906b0d3ab52189991b1675bfef4b0294c83a243f7b79403f661b3b6a8f7, -0x11cbf2d50ff4c2f53601589f78d5b4879c43907f8e8eba36e84be3704829ff5);
  (0xc9633d6252ea9df0eda9df6c2913cead0ac51d4cd58e74f5da5e89ea5d228b0e, 0x5829aacacfb75d57fedc9919ab2a302d39da56b7b655c6e96800bb5a9d51cdb5, 0x512a90c5fc0c2627ad91f8c657529cda4acf8d2da5cf6e57aec20cb55705bfff, 0x30f99e72463cc4991cedcda0e886b4b18b93b35b870ed6bed846ee13cad24c9f, 0x9e6cfcdceef88ec1e34d742706d62e2f0ba5e64883642d5124734e5b3a2b2c97, 0x18de2cc9b4e1089689860bd83ed5b90e61863c8ddcfd6d63c72ba43b372b7a5c);
  (0xe271ab4ebd11fff0ec68a819b151c9ad16b2402b2fae6c2220fdd66672bd4063, 0x117364d1a188812339342d6faaf9b9d8c4b41fe1fe92733d8ff4a19fac5ccbd3, 0x90e186732ceba6b53d27529891ee2e96bb2bad9ad152d94feb5ed854ffb1160, 0x3481373769e730cf8898c8df932b9e673d5f283b3bab852aa8310da225a70ce1, 0xc84ce4efb3f8fa9722a0e5035f0f7ca5d8d0b541047aa2b4334ce20e89fb72b4, 0x3e8c4f8c5e430f50e1aeafc7bca6a33fa9f98526c600f66f568b06dba5e972a9);
  (0xd36996ae84fdc0707b26792cdfab4100a637ffa1177d4a6e9b004ce2e8e408ee, 0x3c58748cae51b1cf8ccad71af45f8d62dd0561bf168a99d696253fe33751ae1a, 0xf091584b70288f392823a9a6b25c2c8d04c4868c2221a19af737e1a8374d1f41, 0xb631e3c4513f26570e3dc79010d1cd3cb6e9f7cc6e4509605b5762ba10d134b, 0xae9739f0a3145e33b2d28481cbcd17e69d87d183e236a2ca6e834f025322cbbc, -0x236c7d2a1472fcff35f090f64cb1750ebb6332b5baae7d447db816d871eb3bcd);
  (0x82f4035a2f943ba8d23b2fd98a9fa96b84620ffd6fb6ac5d80d2d89c955d0442, 0x8e25b7ae51eb379cea6e4db5e69b4d2e48ba771c81e3cc77061c680b9a85764f, 0x756d0a9f3b40d862186e88fe07cd243b71e0eaeaf657297ee03e0e6e1b3ef5c2, 0xcb717972feed02a6def0e56581db145f04adbedc59e1d33c2333ab3d4c0565e8, 0x42fcbbfdfc487c0c25cc88ca628336de7474bc4c291e1acc486445df97be444f, -0x29d834cd4a4af0125eaa9217a19f67c9f4d495912b418d7deee1f8ddc96c67e3);
  (0xd9e9badf10498fba162eb6b719bde60c1168f5c29a9c252fc5359bc67bb0daab, 0xf702e92b07088ccf1c7f7c5e68541310b3dbfaebee0324fecd073b3158d0c2eb, 0xffb186d5a656ab5d58d1c9e5bd82be3e93e53eec9e7720cddce0fd3b54ea7e79, -0x24e0500d9e8722c3906e15899fa7d8f8131a46968731de495cea26b20a5292b9, 0xb97e1433dc1141996063a854156d199b882e7fd608faa9e48d4348724889d050, -0x59433cd0d555612ddbe60e99ac5b8b116be60c2ecf32dea083219e8cfe9cf7c1);
  (0xd58e4dbb39976789cac864c457839241a9600925ae5f118e90b5111e6ee5f145, 0x23120c600275fdf907f4c63f66c9ca1fef2db61fea7608c53f3d9ec9bcb075fb, 0x22b0f3ff8b73b4c61901bef0e342e6bdbbaf17a1022aa607381afcb5f94f8700, -0x687fa2c2daec4e1f1d8cf6260b79bf542c067e50ba4ac510fe55aaf1dab765c2, 0xb2261c73e123ffd46cbd5aeffb8dfb72bfaf6a60d7b9fbe9d8338db1c5eb77d5, 0xb0cd37a9d672ccc3323daa9533a831819a7e6b4ed256868fd3399aa4ae369b79);
  (0x67b0b964a2f26f16045e777230c8030b954ce902aad8a9d72f137f3ec973617f, 0xf5318bf91a83e7098ef58c6ddd8decb543a809e8a13e4391f5031bbc0f533f64, 0x45f1359a62d42359056e2ab80954c9e96c762d8dd9dcb1c389c0f5d8531151f0, 0xdb077ee2c553a66266e4dcd6b3ae2bffaf3dc7554876abdc9d5c31e5fbbaf5b, 0x29ffaf2e6bc1bdce8f765bb426104ca3b8404e9c16fec4a19a7cd6d8150ecc09, -0x551bba29af3088388f1a071bba85f8f8f48e79c46455aa063e825c344a718ea9);
  (0x8030a1ab44fe730e18afc3f42dd9abe34c9266904e5b9faf883c32b833814b17, 0x2e290428d3faf014030143470ce6bca17ab9345b8e835de7d1e639bba1e5bdd8, 0xfab5a0ac7d73217f68491376c75ae3e207aaad863a26c5eaa033f83d0b373a15, -0x3dd1064a18fad5d2d5f731aaed86cb10b554d0c78db52927d7d7ed4e433e74a4, 0x4030aae84b5131d689369fc7b97fcf3bfd5d8202e773aca01996c2d340289c53, 0x63aa1333201281a232df93e5963c6f6841a3485effc0ec0c5bb8d47ec0ed1ea1);
  (0x5bafce2495f2fa0e74c1c0d3eb547c30a3bdb10201f9724e370643cdd2e06c4d, 0xdfe90ca5548408346de9aed2f892e1bde88ae07b61c2e28fb1fccad902d49020, 0xb7fb7c9ad65deef36a0544b0bf4f7abfd1b2a06e0d566ec94fac858609d6cdcb, 0x9a9d2c1d40675873fa50b723d42d3c3b6f55aa60c6ccd8bb03c65e73503b65be, 0x20d675497e9ea685b55fb5a77f5b9dc52e325ae14cc7fc371e57ca2d7d4feef7, -0x3fa9546bfcbf74537738122ce1b8aa01905736af9073a55a8d5fd14a003fc6f8);
  (0xeaa21ee4d3193ebfd4ff0cd3a3850906f761b0696a90c5a245d1acae275021eb, 0xf800c24e1445611f69d3f2ec1dfb450482695c555c8ccb19dc9d7f576c46f979, 0xc20aa0642780b46c5ff70ba929e92fe37ca285b337c90d00805a4341b6e22bf0, -0xfa46c21390033d83bcc98858d79b8503cbf5f5dfdd3d0c9569705e9361905812, 0xd70cc7256f3fc0acb9eb31cbda10200f0d0bb3c04cb94ba82ce2598cc07dec00, -0x1614edf584558f571ed86811df6f000d8fb13d9a0e863ff514e0a8f27704adf2);
  (0x9848ac3b1358d674d92dec61ab818763f5e3f09c18e8545572f1dfaeb4154bca, 0x6ed3c7cbbff844edc35dc20bdfdd251767ff30d0cd26ee1b9bbbb5ab5540ff60, 0xd1b8d380adc7fafadb5dbb8b2a46053fd7b83489e7d12c0763bd4dc9b0186799, -0x4b1b3e1e82729b8949b8378a093fd0dc8264f3cdeb654e6c8f4bd96d0564574e, 0x5a9661277c13d044b036dee43fa22e354b8741cec81760e865844a70646cb87d, 0x5199a5adb6c0bc12a4bcbe96023541d8a125feee47993e071c10fe9f753a6a9f);
  (0x4b2f02323795cceff4fae57277f199eaaf613c32c04e08d2ffa33e825dc160b1, 0xef5275da96b0c77f493c66241f649375eab7514c7e92234a18a61b41f9eb06b0, 0x6d98d5a7c7bb178a5464147bd6a8b1058f71312f223236a765bd261b31a05df5, -0x14c0bb4df2ac260c7956eb8ef609b27c750b3976908fac7e0a5c178cd4bc1af2, 0x161493eb3b0701cdf37079d83e8d4f7e2316aef00910ce78cc84476a0650f8df, -0x25bcb55a7fa1feb1deb20e98c40ead8baca45d7771ed274bc2c456082e9f7c82);
  (0x2597e05ab9ad7bab6c6042dc8b0a08020fc46a590057260d1343acbf9a9dc29, 0xd85b9d81804f75b76744ab9371a216c8e0751ab93d5a5ce5fea6ebbd32c3ba4b, 0xdc82012ef0b98f7bf317786e69826cb148812dba5f80d789b32c417e0c7194f0, -0x114427988579632b97d425f4c517339a7e8635259c8d1015b3e862156f83a55, 0x58540f4a952157e1ea0d1616d1faa34f1d1a5797c293207c7f8367dcba462, 0x35f4cfe9d863960b643480ab7b1721d72354cdae1cb95357dfaf6df42f0538);
  (0x4dfeeeb6f36c1a9ca52e3abae72aff21f3f5cfc1f1763a5463cd3f9419518c9b, 0x834e691bcc30d8800dc8c6ff0481adb1ba197409e5eb48a54e8f492653bdffab, 0xec233f67fa7c0714ef529a14ccce39d3ab595b1ef801313b19f03a013aac0cb4, -0x19e32cdce2e22e76ca79cc2f5205f72b75483a8b082edc33598b8ae48bc88ffa5, 0x17c35978a012c1e310dd1919a566f248d710b81528925ab815656eb12583c9e8, 0x19e9ab2ba30f2c922de2744b0639b48ae8cf2a08c50736c0b454fe2431a33b84);
  (0x9054207d23fdd08ad96b38a135a128fb3ef816f72a9d5f1f52bdfd118ba86b4e, 0x99dbd8fe234c8516a84c21ce12a81a46187041b71f3ca6a05225b75ddc9d636d, 0x103db3cba4ed3dfeb36ef511e484167fa0c84610b3abae405a40be34ab8c1411, 0x4036d3a2417d01adb94a9764bdcdc2ec05c8dc9ffd5faf72c2a95f1a8d9ce50b, 0x515ec0321ebcaf58aec70eb17ac516bb94ed4b5bbe88f555d6bd3fc3413131cf, -0xcb6f834bb7bc50401511ab57e16c37ff566dd8a3da6676d0fb4f26c7fed94ef);
  (0x9cfcb3c3101bca8208a3879277013a90fde33d7e52688c097ada6a913a3e7f3b, 0xa0245d83b1457b6611d1231b98dadf9201f26c638cb03e4060f964e9807f0e16, 0xd67e2cea73c2b7006310fa22e059eb922acac7d257de4116b4b86f8de58ebc5b, -0x1017e4f1d0f6756e3325fbab147d0d4cab4d5068accc755d5114ab76eb3865cab, 0x6044f48821e3f2ad931425afdacee078c6bf7d53f10dac431f464adcf41bc0a7, -0x3da648d54470211cfe68f21c5b3585cde14ba6150cf5184fb946aec956106d1);
  (0xfab655ddb77e8b9989c2effc19e228c0c72121537ebd7ec3c6a7e4d048847d2b, 0xf4295ebbbb524f05ed096edfb57704113ba4ca94d1b1b539ce8f30440394cf39, 0x2fee88754a5d53596be914326dd9d0435c5df90e470fe8394b1d61cc0b9f0165, -0x259aec9955075e602511bbf886f4bac016d90035c30e75d6b1b404fac8a5fe29, 0xf588a1933e710c76bc17c49c252aae4da57de2e8f766b942ce2cd7c0f372e64e, -0x5248baee059a70a643b3868d0c7b79512fdfcad05d61228ab7df15ed7844572f);
  (0xafd086d090b268755bdf504137173c8ccc46493d1d4201e9916a757f7b00dc70, 0xaccf43e70c4900e56c9414fd57f2206bd9e8fb55ab1e40dd1af539373a58ed81, 0xde83c3749ce258f98118fad43cba0853338f81bc2dc6e39bd810ae0622e70422, -0x278c675261de3ca4f0d7676979eb9ef502711a334c8aa5272188c085437be1fbd, 0x78bec22c7fbe0e206b5e67581b608778423173a7362efd32a54c9cd0627e3783, 0x3100b7207c0b1d4063b3f590433379f9326d62a7d115b19df0db960a03bd8957);
  (0xa5539e4c2a0cea6c4ede3f6173797a79cf2787f06f7e96e45e56c87a2e153893, 0x8b20b1ef875b4f0ea0782fe906159da0c62cadc18b9bc14d2a9598b5c189e107, 0xfa223d773182d041a44928656832f024747ea14d1690b5ee8497c49d262c956e, -0x3e8e4a93f20cf84dc0c32dea29055a3c4727303a87c1ba5dbd9caefbf4ccccb9, 0x6ac4e55e357a05208fd6c10c3cefe4afce0add5e35c4ce068607442acb15a5a0, 0x15c084819f5fbd2f896101e0e1d00b6f4d9dd26804c5f83f6863b3c1466691e2);
  (0x18338c0dbb8c4b2cc1c0beac6fe6aba94372e897eff057934f4f1ab15a411201, 0xea766aedc87ca1b9ecc5c3bb0ba49b43c2edbedc673707fdc234f74c7e76a0db, 0x927d17f351b6425e359b7f2e13b963e717755ace4fefcbd20dae78caeaec7fc5, -0xb38a695a1da93c5380c112a9db087834b9dca06f08f10e4c33ca4fe15c4d62f9, 0x249b4a3ad420ddc60082fb87de690ba5ff924e6ec8a60544f8b2f35a51e1268, -0x9033b93af1f66ecbbe2ffe5ffdcb3cec3626f74fe529adbc40601103a405ea9);
  (0xfbd1ede4f87d76496c35e8768d3cc737302aacce3580b0b9925bbae37021f505, 0x1188f346c1e0517f809acc50daa6608f04175eb95fb762606fd62573196fbabc, 0xb05a2ac6c1d2fc12f33a67302428f25d84093a864644692749363566c71d1837, -0x16404894a70135ff0c82f5e6f653c2ff31b5ae798e4614598a901a20b74f6bff7, 0xf7b554a54c3583b2fbc65dad96fd446ce9e472ab7e78658ed9a71e560285c809, 0xd562b7c550ac364048c39a2dd3dc4cc8d42ba1b323eab08f4a16ffebfde03591);
  (0xe87d436bed4bff39a438dbc5e0f2a0ab3c426665c18963a027a08bf1b5481af2, 0x5ccdc614cb67789e573d7fc6092e47af6eedf507a4cb6097a2872654465071db, 0x9b25ae1bff2ade1558886a8a9ecfa421cf301ac5c765c4bde6be69734402b230, 0x13cb595c191c391db2851a47c9abe9beb65edc52d44f20a461d571587dfb7e7f4, 0xd323477e87412685b906c12295d21db1484f293eb4c13fbd94da16e8e3fd705f, -0x445b337865f23a6b6912900a08c53286599a06770dfdcc17b11fc8e30cea495b);
  (0x6ef473b5991356ad1b67f3fac06178cedf101127229b3473a62ebee5a858903e, 0xb89b4aef0ee4749350d17606d549453085d14c129ec4917f24adac9713778657, 0x8021ddb2d8e02118d9598ab5d87c2e615170e583c727da0dbf8331b2814ef6ed, 0x218f0a62919a29f51b3983ca3044d42a06d856f6f86629a485ff4b9cf364d1db, 0x3016fcdcd60513b32e49ca4d9f51dd9384f219040798b6798e171644d21589b9, -0x27c9f876dae9c5c2b2296861a8e0379b34691b763edde6cba4cb355ca45420eb);
  (0xc9dec5ff3cfd2b46ca46f2e1e2462aaf8500d13eaedffa5622486431a4defc0e, 0x750c48ea743e024ed6db98d688af9feea98d19605b8c35f41f7689feb4947673, 0x18fdbc55b1536ec580b94e206c060f3da0bba66c48f82208afc55028bead3906, -0x31922388c281092c1ba5e4a4ae609e3e36825e125ea15c98ae3820cc5f156353, 0x9f2f94c6cd9627646be90d73e04c129775840591ba083ccd093f699416bee73e, 0x354612d9c583ade0c37d0f3e9fb4f9260f958c1cef5328aa2cbc1d1fed949f8b);
  (0x98878284e0dad18c26ef85a11e64f28c050b597a75718c02f4b113be0d7f4566, 0xb2ecd953ffa503c43af22fa56ebc56fb8901494c72b5b96aa3f4308287f5e8c8, 0x4d5554054d04eef6ff7ab6a9fdba62504329d19cf70bcd1c854e5a173c50c538, -0x82c4ecf9a134c7724310698d6416c0268be1e550aa6e0ca67d40feeac4bd8d3d, 0x5ae132b8b5b438f654079920811afd9b33cac5c1548f3e5cf12175a54d34f4ea, -0x24de16b6f9e71da33228c4b7d7d32173c40743190f6820f59b0d1242ea61c9a4);
  (0x54872f7c6339d01480fd341fd5d2488dfd73172d95ed1155432e6e89d3398c0, 0x728794205f90f54bf5d1e505b38217947322fee226e4434451a4b91167a47c8c, 0x464f7c78b01df1503055380621c3cb35c8f8bbf3afc4bdf9e665e9aac19a71e8, -0x173f9915187677191d79194277f2dcc280aeb614ef63d263bd79121fcec011b40, 0x1be8fe8cbf1d80666b251479fa5a4d11c13f2df74dd8b4db090a25fc872f5c, 0x15433c0e5077b35f2076376a7e024c997ad73f2b6cb2eec99ec3087a1aef020);
  (0xb652eafe317f809ebd0d0babb231eba646f4bf5b1c3e02f7e018073689be34d1, 0xf4f5086c4adf5d72f97848e135ebea1f7c3231ad2827e12b61b38a0ab54af9d3, 0x7c49403601263860c0b8e2c0535e9989e39b3ed60b5034cee4f38fe3f368c72c, 0x5234fbdea13944ac44e70202b850aba9bd675e4436ffadf7bc31d876a8ad2c4, 0x81da00fcd0eeaf737437244c3d13de68833954516a83d0281d38fda5125be976, -0x5ce40f76c7b9cea90fcf650a75637eb64973965af5cf2f90b1e28bd3e3ba8ae5);
  (0xaeafae58242a90e531e26ad3754e9a553b88d37d07cae8e35fa4185aaeb6f158, 0xbb2228d3ea32cb3c1eb160cc824a4ba8115f9a7f415d18ddcaac8193defc2c47, 0x8e07363833ca066474d5432354792ed348ac64c044ba43bcc4c426bce4ca3ddc, -0x2158ddf0e4eaf201d36866a9196a2cd4e3031c55ea49ed54fc2c2c4fa8578dc75, 0x7733498fa4673eac688129fbe8b0d1c1e4a56cb6aee4de10794d19df78f4731d, 0x27750281a7811434422aa6eb01a6e60e414b6b07cb9dcfa51d232d07c646c468);
  (0x9b3f6216667833ff2a4bbcd12ac27afe4a51a2d3b07eb0e78d312eca1f7159a1, 0xf978b7a80b10554c847ef8b259857af1cd5060fe394894f17a5cd815f896d363, 0x43b86e54f0380b3bfcc19605f90aee73e0b34528976e3fabeb5c7e34f8cbe5c4, -0xee1db49246065ee4c583deef85f2d6ba63dcf8dad8a141e84c4581c9ea952b95, 0x5e25d0788cb1268a624ad60999cacfffe004c46530882a98b77eec48bbbc25b0, -0x25cdd7aa2d2b76116311866b43a130b373a0286b69f4138f623d4c7141031084);
  (0xf6c614511660dd458e525fbfb354aeb10fcf1e624c2f26086ba3729f78386cc0, 0x16f9a89d6da61f39bdbd7aa1d99d6c4fe7d35c91ae777df739678098dcdf2247, 0x398c2a7f1f5f6cd2ff426221d4bb58c75dbf1c2ac7910ca6fc185b157792aa03, -0x256c4ea7f239c2430100f4c3ab0100ab0a8af6490928f26433eb10afc2b761d15, 0xede1484f460d8c4642f226602028c2ec3e99dc86c2a10c22ad34de575b759c7d, 0xda5558b380a70579c000f83fd5ee4de8c2a690687a2c25eee60d56e8707c2317);
  (0x2fa523c29a33f7934f4e62b53aef395863ff174d933527da8937c26b6a5c9c60, 0xa6b594b38fb3e77c6edf78161fade2041f4e09fd8497db776e546c41567feb3c, 0x71444009192228730cd8237a490feba2afe3d27d7cc1136bc97e439d13330d55, 0xf3c20ffc65214bed9334cf00e5a24691d7f9c08ad15d937943f8a20cf0d3b63, 0x8de0da89278a5fd845b16a73a967803eb177fc87cd5cbb802d2fd32b60e13aa, -0x1ac0388b2ec8a38a61724882e8c7232a165b2d0cba37566c8a3bf056082d2e48);
  (0x60610490a84968ba2933cdf68cdfad9b184ba2853935fd774bef4e64377ba489, 0x3b78ce563f89a0ed9414f5aa28ad0d96d6795f9c63, 0x3f3979bf72ae8202983dc989aec7f2ff2ed91bdd69ce02fc0700ca100e59ddf3, -0xf066ef23f2825b3c1099c08d68017a723ffef14667a9f0fef20302e2601162aa, 0x2448e830f3eb6d2d087624f4324d34346794750e7986d408080f28c28d2b7d6a, 0x3ec34589b7fa54c94137cf83c615fca0ae81b378da463c2ba0a696cdfd02bf77);
  (0x3b9e1fd3f452018f0e9c2ee69240a880ee147a50256c489c9338d92cacd255c2, 0x79be667ef9dcbbac55a06295ce870b07029bfcdb2dce28d959f2815b16f81798, 0xb7c52588d95c3b9aa25b0403f1eef75702e84bb7597aabe663b82f6f04ef2777, 0x1d7298c92417205f0a2a693fbe29f8ec2086dd54b2d5dfab663d6f01c334de5f, 0xde244570034669a620dab01c85900804a78e9a15f24f1f2d13289bf8ef24c3a, -0x1c5a1445607c69d1d948387b9687d926de66b12215c644000743c395a06903ac)].

(** q * p, in the cheap form *)
Definition kp (q : Z) : Z := 2 ^ 256 * q - 4294968273 * q.

Definition third_ok (s : step) (x1 y1 x2 : Z) : bool :=
  let '(l, x, y, _, q2, q3) := s in (l * l - x1 - x2 - x =? kp q2) && (l * (x1 - x) - y1 - y =? kp q3).
Definition dbl_okb (s : step) (x1 y1 : Z) : bool :=
  let '(l, _, _, q1, _, _) := s in (l * (2 * y1) - 3 * (x1 * x1) =? kp q1) && third_ok s x1 y1 x1.
Definition add_okb (s : step) (x1 y1 x2 y2 : Z) : bool :=
  let '(l, _, _, q1, _, _) := s in
  (0 <=? x1) && (x1 <? p) && negb (x1 =? x2) && (l * (x2 - x1) - (y2 - y1) =? kp q1) && third_ok s x1 y1 x2.

Fixpoint cmul (k : positive) (c : list step) (gx gy : Z) : option (Z * Z * list step) :=
  match k with
  | xH => Some (gx, gy, c)
  | xO k =>
    match cmul k c gx gy with
    | Some (x, y, s :: c) => if dbl_okb s x y then let '(_, x, y, _, _, _) := s in Some (x, y, c) else None
    | _ => None
    end
  | xI k =>
    match cmul k c gx gy with
    | Some (x, y, s :: t :: c) =>
      if dbl_okb s x y then
        let '(_, x', y', _, _, _) := s in
        if add_okb t x' y' gx gy then let '(_, x, y, _, _, _) := t in Some (x, y, c) else None
      else None
    | _ => None
    end
  end.

Lemma fp_mul a b : fp (a * b) = fmul (fp a) (fp b). Proof. symmetry. exact (zof_mul p prime_p a b). Qed.
Lemma fp_add a b : fp (a + b) = fadd (fp a) (fp b). Proof. symmetry. exact (zof_add p prime_p a b). Qed.
Lemma fp_sub a b : fp (a - b) = fsub (fp a) (fp b). Proof. symmetry. exact (zof_sub p prime_p a b). Qed.
Lemma fp_opp a : fp (- a) = fopp (fp a). Proof. symmetry. exact (zof_opp p prime_p a). Qed.
Lemma fp_eq a b : fp a = fp b <-> a mod p = b mod p. Proof. symmetry. exact (zof_eq p prime_p a b). Qed.
Lemma fp_kp a b q : (a - b =? kp q) = true -> fp a = fp b.
Proof.
  intro H. apply Z.eqb_eq in H. apply fp_eq. replace a with (b + q * p) by (replace (q * p) with (kp q) by (unfold kp, p; ring); lia).
  apply Z.mod_add. discriminate.
Qed.

Section Chain.
  Local Open Scope fld_scope.
  Add Field Kfp : (fth Fp).
  Variables gx gy : Z.
  Hypothesis Hon : on_curve secp (Some (fp gx, fp gy)) = true.

  Definition fpt (x y : Z) : option (Fp * Fp) := Some (fp x, fp y).

  Lemma third_okE l x y q1 q2 q3 x1 y1 x2 : third_ok (l, x, y, q1, q2, q3) x1 y1 x2 = true ->
    fpt x y = let x := fp l * fp l - fp x1 - fp x2 in Some (x, fp l * (fp x1 - x) - fp y1).
  Proof.
    unfold third_ok. intro H. apply andb_prop in H. destruct H as [H1 H2]. apply fp_kp in H1. apply fp_kp in H2.
    repeat rewrite ?fp_sub, ?fp_mul in *. cbv zeta. rewrite H1, H2. reflexivity.
  Qed.

  Lemma dbl_ok s x1 y1 : on_curve secp (fpt x1 y1) = true -> dbl_okb s x1 y1 = true ->
    let '(_, x, y, _, _, _) := s in eadd (fpt x1 y1) (fpt x1 y1) = fpt x y.
  Proof.
    destruct s as [[[[[l x] y] q1] q2] q3]. unfold dbl_okb. intros H S. apply andb_prop in S. destruct S as [S T3].
    rewrite (third_okE _ _ _ _ _ _ _ _ _ T3). unfold fpt in *. pose proof (on_nz secp _ _ H) as Y. rewrite (add_ta secp) by exact Y.
    apply fp_kp in S. rewrite !fp_mul in S.
    assert (L : fp l = tl Fp f1 fadd fmul fdiv (fp x1) (fp y1)).
    { unfold CurveAlg.tl. assert (T := two_p). apply (fmul_cancel_l Fp (fp 2 * fp y1)).
      - apply fmul_neq_0; [|exact Y]. intro Z0. apply T. rewrite <- Z0. apply (zq_eq p). reflexivity.
      - replace ((1 + 1 : Fp)) with (fp 2) by (apply (zq_eq p); reflexivity). change (fadd f1 f1) with (1 + 1 : Fp).
        replace ((1 + 1 : Fp)) with (fp 2) by (apply (zq_eq p); reflexivity).
        replace (fp 2 + 1) with (fp 3) by (apply (zq_eq p); reflexivity).
        transitivity (fp l * (fp 2 * fp y1)); [ring|]. rewrite S. field. split; [exact Y|].
        intro Z0. apply T. rewrite <- Z0. apply (zq_eq p). reflexivity. }
    unfold ta, CurveAlg.tang, CurveAlg.cx, CurveAlg.cy. rewrite <- L. reflexivity.
  Qed.

  Lemma addg_ok s x1 y1 : on_curve secp (fpt x1 y1) = true -> 0 <= gx < p -> add_okb s x1 y1 gx gy = true ->
    let '(_, x, y, _, _, _) := s in eadd (fpt x1 y1) (fpt gx gy) = fpt x y.
  Proof.
    destruct s as [[[[[l x] y] q1] q2] q3]. unfold add_okb. intros H R S.
    apply andb_prop in S. destruct S as [S T3]. apply andb_prop in S. destruct S as [S S3].
    apply andb_prop in S. destruct S as [S S2]. apply andb_prop in S. destruct S as [S0 S1]. apply negb_true_iff, Z.eqb_neq in S2.
    rewrite (third_okE _ _ _ _ _ _ _ _ _ T3). unfold fpt in *.
    assert (N : fp x1 <> fp gx) by (intro E; apply fp_eq in E; rewrite !Z.mod_small in E by lia; congruence).
    rewrite add_ch by exact N. apply fp_kp in S3. rewrite !fp_mul, !fp_sub in S3.
    assert (N2 : fp gx - fp x1 <> 0) by (intro E; apply N; symmetry; apply fsub_eq_0; exact E).
    assert (L : fp l = sl Fp fsub fdiv (fp x1) (fp y1) (fp gx) (fp gy)).
    { unfold CurveAlg.sl. apply (fmul_cancel_l Fp _ _ _ N2). transitivity (fp l * (fp gx - fp x1)); [ring|]. rewrite S3. field. exact N2. }
    unfold ch, CurveAlg.chord, CurveAlg.cx, CurveAlg.cy. rewrite <- L. reflexivity.
  Qed.

  Lemma cmul_ok k : 0 <= gx < p -> forall c x y c', cmul k c gx gy = Some (x, y, c') -> emul_pos k (fpt gx gy) = fpt x y.
  Proof.
    intro R. induction k as [k IH|k IH|]; intros c x y c' H; cbn [cmul emul_pos] in *.
    - destruct (cmul k c gx gy) as [[[x1 y1] [|s [|t c1]]]|] eqn:E; try discriminate. rewrite (IH _ _ _ _ E).
      assert (O1 : on_curve secp (fpt x1 y1) = true) by (rewrite <- (IH _ _ _ _ E); apply on_emul_pos; exact Hon).
      destruct (dbl_okb s x1 y1) eqn:S1; [|discriminate].
      pose proof (dbl_ok _ _ _ O1 S1) as D. assert (O2 := on_add secp _ _ O1 O1).
      destruct s as [[[[[l x2] y2] q1] q2] q3]. rewrite D in *.
      destruct (add_okb t x2 y2 gx gy) eqn:S2; [|discriminate]. pose proof (addg_ok _ _ _ O2 R S2) as A.
      destruct t as [[[[[m x3] y3] r1] r2] r3]. injection H as -> -> _. exact A.
    - destruct (cmul k c gx gy) as [[[x1 y1] [|s c1]]|] eqn:E; try discriminate. rewrite (IH _ _ _ _ E).
      assert (O1 : on_curve secp (fpt x1 y1) = true) by (rewrite <- (IH _ _ _ _ E); apply on_emul_pos; exact Hon).
      destruct (dbl_okb s x1 y1) eqn:S1; [|discriminate].
      pose proof (dbl_ok _ _ _ O1 S1) as D. destruct s as [[[[[l x2] y2] q1] q2] q3]. injection H as -> -> _. exact D.
    - injection H as -> -> _. reflexivity.
  Qed.
End Chain.

Lemma base_on : on_curve secp base = true.
Proof. apply (onE secp). rewrite <- !fp_mul. change (cb secp) with (fp 7). rewrite <- fp_add. apply fp_eq. vm_compute. reflexivity. Qed.

Definition chain_ok (k : positive) (c : list step) (gx gy : Z) : bool :=
  match cmul k c gx gy with
  | Some (x, y, _) => (x =? gx) && (y =? p - gy)
  | None => false
  end.

Lemma chain_order k c gx gy : on_curve secp (fpt gx gy) = true -> 0 <= gx < p -> chain_ok k c gx gy = true ->
  emul (Zpos k + 1) (fpt gx gy) = None.
Proof.
  intros O R H. unfold chain_ok in H. destruct (cmul k c gx gy) as [[[x y] c']|] eqn:E; [|discriminate].
  apply andb_prop in H. destruct H as [H1 H2]. apply Z.eqb_eq in H1, H2. subst x y.
  apply (cmul_ok gx gy O k R) in E.
  assert (M : emul (Zpos k) (fpt gx gy) = eopp (fpt gx gy)).
  { cbn [emul]. rewrite E. unfold fpt. cbn [eopp].
    f_equal. f_equal. rewrite <- fp_opp. apply fp_eq. replace (p - gy) with (- gy + 1 * p) by ring. apply Z.mod_add. discriminate. }
  rewrite (emul_add secp), M, emul_1 by exact O.
  rewrite (add_comm secp _ _ (on_opp secp _ O) O). apply add_opp.
Qed.

Definition order_pred : positive := Eval vm_compute in Z.to_pos (n - 1).
Lemma order_chain : chain_ok order_pred order_cert gx gy = true.
Proof. vm_compute. reflexivity. Qed.
Lemma order_pred_ok : Zpos order_pred + 1 = n.
Proof. reflexivity. Qed.

Theorem base_order : emul n base = None.
Proof.
  rewrite <- order_pred_ok. refine (chain_order order_pred order_cert gx gy base_on _ order_chain).
  split; [discriminate|reflexivity].
Qed.
