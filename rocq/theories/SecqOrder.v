(** The base point of secq256k1 has order p: a chain of doublings and additions
    whose slopes are listed and checked. *)
From Coq Require Import ZArith List Bool Lia Field Ring.
From Verif Require Import Base Primes Field Zq CurveSpec CurveAlg CurveProofs Secq.
Import ListNotations.
Local Open Scope Z_scope.

(** one step: slope, resulting point, and the multiples of n by which its three equations hold *)
Definition step : Type := (Z * Z * Z * Z * Z * Z).

Definition order_cert : list step := [
  (0x673c28f29b03c501404a03364215aad3844793b98e221b01811e365e407bbc50, 0xc17340f13398a692e5f455d1275059e44c085f188a12ab0aae2fa282098c29c0, 0x18b1dfccd9b774dd05e4f53a15cab27b781f77ffbf92d7617935bf32d9288812, -0x71af9986606318bc44dce8fccb62732f5e2991a16ba5a40de1c61fc54c99708c, 0x29a17716710268a5f8e01c5991077f6d73ce42255e422435bb273263ac02e2f4, -0x1e1e3721bbeafa0724c3197daa0b8aab0ce54696f45937a8632cf171dda98271);
  (0xec91ab52a73ce3fbd2726f02a1216eb649543629753cacabe0215c722d4efeaf, 0xbfee81e7fa8480a8ee0a13d4bf21fdcf37beaa125d921fe088f339b1549819fa, 0xeb9e37d68bf1f60965432b007419ae9c7875dd9929dde2536c905934144c5ee9, -0x450468717b6609b85495bfcfca3d26989e76b9e89b9b13094688369de6eb3173, 0xda9ce6c3eaa13d6d781c5ab481514e593c8cb2e26defe55937e07b87269b0901, 0x1673d50ddf63687e60a61a680cf2992633b2a12a328f0f53903df8275c84e9f);
  (0x3cd2fa5b063a01f7aaabb3cde995a343b874b8d31a1b65b82fd780cb771c0088, 0x913a752f00885fd297143ddb30b12d20da9de38fca2d6d85fcae6fee914a60eb, 0x24fbd890884c8a782bc08710d4f4ca0bbd60ca3875c17eb907e2ba8ff05ddbc, -0x13fbac5911ea1770a169c2b4d338d6b4f49ca6c846dcd8787e94a49f3e0932ddc, 0xe73933a5d17509e0b9062a2b4ce9fcf3ff6e79972214993ea6974c8d04aca21, 0xb18b05a39e41fd95b925fc970b1266b9a9a06c195f02e2e1e10ed160122db93);
  (0x8342c50b82bf8382c5cc0c3bc8469be29ba81405a9403de1a99b446235f8b814, 0xfe60ee504a86133e310f6effc6ae4d04284d73ddb661c946eebc77086a8551c1, 0xd34d28c6196fd290e0e25b4754f4b82ff03d037c6d06548962d3b67a4b452e38, -0xd91b6700f1032328208f4666459e8927a4ae246e7480bb9542456c836c46267, 0x434d6713f96a2316e580743ad9be1375ccdae19c52cf0a1c0b2c90406dd5f3be, -0x37f727eac70ee9e073c5f046a550e95ec9c1ab7123cce068e97f2a87fba195ac);
  (0x71199e91873e05b73a187101182e301ce8d7498b6e4c2b2dce12cc81f4bf2583, 0xced27ec01e6b7ed0a2a9bf5e9f912eae24ef64ab1f367d83b0d877b35aeb8c5e, 0xb41f89bd967757bc3c16a24236b065cc6b972fa60a2c3e0e5fb7d2c1ba435a7a, -0x23b990ffc75b5d81f5dcbe55efc757399405212481756d7d49e6ff7346e880d73, 0x31f7a08cd40920d3e9d60add08e3730486fc0b53656f2e5d41f3c50902c14de9, 0x1502a19c7a33d8621b2e8da5aa522122bc85b15045522b2ab04d5215ca200337);
  (0xbc3b8c2b8236e2a51c3838915babe6d7b6eec3f7b52d97f2d6d5b76d9c34b3ae, 0x7269fdbc96182be2557167aa10ba0d113a9c8a2e96c632d3240f7848621c59c8, 0xb09a7260b9a31002657602a6d7073d510fe1909fc9ba7b9dace8f5570c25df37, -0x40bf67b6df1f3ad318bcd98b4ccc3e3a6adbb8bc650b1ba9df2e216d19338bd5, 0x8a6783b9d00e4000021e1948a15faadee21cf350eaa1a804b5bcc17d451b6078, 0x43f23d6d2f0a179f72637d5b768617027fe985e70c81326e4aa99171390f2683);
  (0xf74beb59964dbff95ba576ee0853055901c43ea594a70153d536a162f637e61e, 0xf6b650c009b8e14e991327551e272632828337a5962fda724d9bc7fd813b98, 0x502be268e4417809c3e01f5f26acfefcf9f3a9ba3258fabfe593cb7f4876af38, 0xbbcb12529209f6ccab3ea999abf3c0c706991552e771dc05c2d7862e50c23324, 0xeee396aa9ee5b34e43b77cabc84bdc4f15c765391d4c665f54117166b6a9495c, 0x6d97defb7e5f79c78c62bc4706a7cff6765c223a8bb4fa129c9b2757e5246df1);
  (0xcf1107e3fe23fe96811cdd25fc7201b1e6a5115e1997d1561c5b40b4d40ce586, 0xeb00fcbe48a76ff35b1ac8c96dad825fd6c2f11633c3b8a5932dde677de0f3d, 0xe53c9adcfe2cbd941ca828049719ccf9b5303e61224c2467df23c7bbd19dd371, 0x5f4886a7d93c1c2fb3ba5a6a86b5795e99db968fe5b34cec79dd168889d3c0cd, 0xa77c8be4c1843971dcd6ffb39d1fc07b5eda6937c4ca24da52ff623ef80e8669, -0xb19c915ce1e113d1390eb5352c37782f316d721638a50fd77713ac5d3e00b47);
  (0x69b0ad45fa0f7ce2e61175fe7f167afd99d1952a87de579202679b237754648b, 0x34672f0258f91d3e882ed445d7da9a8dbbb4119d21efb53b2a5556ce02b95363, 0xe275a9b57cd84983f3c289e36592d1a66bd161083aee2f302ced094daca18362, 0xbac0f03f6135b73077d61afad6b82d2bf70cf6c637f62bf7b504cc874b4bd55b, 0x2ba268121ca030d7881ce8eba9f06b3f149e8c27b0f84242a8281c0cd5f62e9c, -0xf922339da7bc13a8f1b8d0a3ffa22b4ac8f78cb8289036529f132ff23606d35);
  (0xe9a168297bdcc557169e3bfcc6da3b6ea0b2b350e496ab48bdc0a43c79c3da27, 0x189c9434d9ac6e142cd5c385cd4b703a8650e14bdd34236bec742a1b3aa0cb2e, 0x7cd2a4ee5810ec8598ff60b28a5de09cb203a79ed59aac4c32f823ba95033487, 0x3c8ff95ea6a5b79aa3b12a51b265f7125b757f94c7a21e9d9df4850123a68c18, 0xd537355fb207664507b25884dae20b441e39e1d0819bfb872207c50867f45d3a, 0x195cec9f33e27132636b59dfa1135b9ac7059f139c0e330311fb4c5d64f295aa);
  (0xe31c46869d73cc1ec907de138a9701085c23cc85a7e96ecaec7fbe32e61d36a6, 0x7e0e3300c620f973db234e17d34e9c4622c46492278b41aa2a8fd7fb90d7f1d9, 0x3ee43b2275e242d0e97898d131dbc11b991fcedacb306cbfff6a86e1da1a550b, 0xd65ff0ac9f7f4348f9d23d8c1448dbc76e32b56586e5468373f79f743029c448, 0xc97b28323c1bb237c8f1b078c6baa0ab7b1ac8a9f8818cf94ac59b60e73250af, -0x59fef42e9a42a70adc461209acab0c3d7e46403b3c06600ae619542b013ddd74);
  (0x370e12e5ce1a380a1ec34260876fe38052cc1f8bfd4cae983d19e1b782c8be59, 0x3c564aa982739e8d04174c52f264676c636bd8c4d48f5cefc8e3f375596fb09c, 0x72d8e5a6c5fb3a2a3540496bb33f45517f7d05ba7c908171a270eecfd96bb4a1, -0x1916c57a826dd43286f60404e826ab89a0d385dc24c4bc8d48a5bf56e49576f, 0xbd70ce4d116ee388b0b272ef3402414cc64ef48a7b7fcc576c98d26a514ff56, 0xe221fd36111a2daf08418f88e22ca552d45c0a2676ff3ab1b9e1ee55be08f49);
  (0x37f2d53b8f57363aa882ff3bba849c509a0f144a77498979cb970785bf5966b8, 0xbdcdb807a5d40ff3ec6a0389d6cb50876f05650779acfb36ae47fde31db95e2b, 0xbd4a5b2f86d75570632cb468cceca37297bad51a93c95712eeb3f398a8723bbe, 0x78963d118ad5bf50fcebb04913952c52f04adf0dcfbdfab4e0482b8bc618640, 0xc3a3df76dcea4923e0209154fca5681224bb60fb9553cc84db0e2e4c6d0609d, -0x1c4b773b199a82c450e04cfb37cb8b4040565f9d152282f87af4cc7998da6867);
  (0x181199c646eee156f32d79530284e6ff04d3391776e2035392c8222634118602, 0xd3ad5a6b114a792312d2f88ff47250c0ef80fffe2acc4232a560f9722db2f0f4, 0x6f38b22397f4ee35a705523cba7e0181c5993c5a353c2882a0315b95cffcc9dd, -0x6add4a86515939be47d866c959cb3973a114f6bafa3c9c26f7f8453882e9d0b, 0x2434e0af600d05591aad61983df224677e2b6bcb4bce62ce8d861f44b357c7f, -0x20e7836b3c1d0696d9f4de0d85301bd0d3552942a425b29ab9ae477c65ff8ed);
  (0xe823c2c9f0e963ebf4e3103142782f5bc1d9f771a09d00eeddc0e8b2d7b6cdc8, 0xcdf395095d3262c8a559289f9d6d393d406e1bc52220f8dc3140c346de000979, 0x9d035770cf1a80334d7e4fc8937f46191e260acbb86d16f161391f00e4171f5e, -0x1435fd3acd9ee80ddfbadd619855a9e4159884a494fffd9fff0cc18173d13e660, 0xd280d60cdc15955aeb077b3fdcb9f55fce679509b80ca9531aac1be935519a1f, 0x53127a1d364d91a06880c7e1e4d5b75cc03ed0698e45175d7618a87c707299d);
  (0xb57019cf3292366165e1a2e91607fef95c9f94494e946eee7382a363c255598e, 0x8b54a90d0db72f6184a358fbbf6bf57239e4718612672b21965c34b0ddf72e41, 0xfc342e3cae7171540a47a13a48e58f4ba341c21e270ab60a39158bafc2ebb58, -0x3dcb167de5f9acc1d470bc82d1283a03861f78eb6300d902a398251bc9efcc6b, 0x8097b59595692068b05a9df5184325d5f80af5e72d807cb9592ae18eae726864, 0x2f378918134a6ce66fcff0c7a57ff75e1f5a34cfb012a1f1278456621c8065da);
  (0x3d7a2094f5cb0736312959cab25ecc970f857d591b4ded10550860e7d1efbd03, 0xa8101ef88ee953291396eec5defb7d986d21f6c0413267a892472d8b62f7bcb9, 0xfbfd3c604e9e4080bd0ca12d8a430bd60065fb0733d6c40b7b390f662d11b8f2, -0xdbed0abb2eb5f15dcc09b57c552ac4632e124b9abc4a32a530af85b1d04f11b3, 0xec36dca0f429b1293a0aff986b4ce6c6b91ac0436d96fcef2f507120ed9b34e, -0x6e6601776b85208a94d10e58060c68fed0d5a5cf390ed0b160d072e15b8b932);
  (0x7451452a4fdeaec2c2350667ccdae004c0553551cea1344b435abcfdd0e2d63d, 0x4178c290c924d0f8fd8b462e0285cf2bf5459ff2d7e04fb320e28dff4311220b, 0xb841b99ef9956f7c64d3c10dc6fd97a34c7b66fa1fe913617fc2cc9579caabed, -0x1666505c070cf5d76c2feef01fbdb631191152d38a47897b7ca16bf4f7e60f14, 0x34d9c07b2fd82f576f7079843322ee19b5e9cb58aa84517a9ff2a14bb4f7475f, 0x2e9d277b0331b24e79e43b7d00b88733736033e91cb9cd674c88bed8719addd7);
  (0x6c88113ffd756b24604b213598cc8a550bab4b67485f71501f38be0520675aed, 0x7810280ef5838bbeaa556824e6c9056e6663b2a4017345f7cb0ab2813eb9555d, 0xf969bd8ee7b280d009c4f9ea29300451fd60c1a903f0bce243b9f11e18bf95a1, 0x69ffaffaae17974c21660e2fbb513b485766a9db5245ee9945428fddb49522a7, 0x2e0316e05301eed0dadc902ae3ae56b1a7d75880ecb2d694fcc3a9c52ffd5276, -0x1724e2ecd8cb8d75f162dc7eb1914d84b25f590aef5a966cb1084d04d7798278);
  (0x58e2863fc482e2aa1d98dafa7a8f57d04846589ddbed2fa770bfe2bdeca9b12e, 0xd8ff209e4a16a593d3562a8fc26013c3565f1ad203f8402b3957476f66821689, 0x8152e646ed4035fcc92c27c508b986498daa41f5e54b8dac688ee084fae11620, -0x73753ed482021b4275c58fa556dbe2846ddd63ff695fa996b58008bc4f4bc0, 0x1edc84bd2617c4887d43ad24e7c5dce7ee4403d10a166224d80529e01a2264b8, -0x21a7eb3deeedf1c43add81b45c0620f522adc0346a98b30c171b2640eea18a69);
  (0x1b811f5b1b8c2b0e8e37a18a58181e3e71dcdb0227ece6848a18f9fcf994d817, 0x252ed7c6e2d4c63039f4b784cf496f16812cdf7aff11ad5878d5defdf9cd9e4f, 0x6b90bda2e5128ae2ceb73f0f75c60b1a073039c000c418cedc2f35b6d8e755cf, -0x20c049e1a2b80aa0a3618b8d979097dd49ada4ff7053a1d1efbb648b350d4b673, 0x2f47dbdd578857101b610c2c1d765e68e6ea2ed63f20e5697ea36455dcbaab0, 0x1351a9a9a3a460a8840a398b200433abc184c9ff7cf00b7eeae6470097a8e887);
  (0xd6808fc59390e25fc6be5fce437b41f6931feae93e5a4f79467e389dc2aa4ac7, 0x42ead7ec167f4f859abe9211f4dd31b751641e0f8d7ae202ff9568eee43286c3, 0xb58115226fffc83fcb69c119ab9b69ab9460182cf02f41905ff80b418cb847c3, 0x445b570615883a21ef32d68faea8cd28570c9b96d17904d4eb123075079be3b1, 0xb3bb30ee69081eb2cf0023f6a948e7528ea0e2eefc2fab12143888dd95646cb9, -0x18ea16d222af10af981de85d1b45b5476cf68439fdee3f1b1664b11db6b98a3e);
  (0x8bde882daab77316e833217f66b0325eadb40666e3434e690b1bc5cf7e629910, 0x5e4c7262427343d9916a30ab5209eea035cc791da133a49fbab86bab8f18706b, 0xdbbe4abbd6b1d7ea89e8a9a1c949fd314fbd308c19742741806780314bff092b, 0x91dbed9e6d50123b59b3be458555c534f89f00b6c37c9022de66b29e02787e85, 0x4c6b69520f07daaedc81342292ec0c71a16f6815e839e0931e2b097570e8804f, -0xef5cc12d8d0f0fdfab3594a313ee4327cd86cb09fd3af302da393f2e21769ee);
  (0xad891b0eacce8dce574cc0caf4b49722a64e4b9479d798ea8e5742b60bced393, 0xb809dcd6af191753521708d59a51db39299c23b0bdc12f26923fcc78770b3f49, 0xcd5bf469c037a4b49c654600cbdd189c469b6b83f2f561f0cd902e948728fff6, 0x1095a3bd6b77501c5399b2b3942292cebb1d556e2d27d85a41cec75edaf4cb4d, 0x75a297ffce203a0795fe6aea30f678723219f45483d9c5936ffc2a1ff7cb664f, -0x3cd510cac4e3fa226d133a9a22a2bdcf5d48078767d10db8a97a0e6256777adb);
  (0x14748ee5cba4ad1af3cfcfdfbf06a9bda43066cef65777ee544b0865c045215f, 0xeb7fa9ca3a33432e4928e8c11fda208f598918dbc3f3e3b059bd79280aeb72bf, 0x8ff380425cdda2f0ae7293af66346e2b36dc1d9b5942a75f50332c5c6e445ed9, -0x16c192ab8edaab313c01789d8d4e4dd53fec37f896abaf443ea9692e39a8b7d1f, 0x1a26b65b7d60479bd2b99f91345ad131ad2430313c0bb4c54563d3a46fcc3f0, -0x41ca21d6e3804155f0ee45f7589fc57a0e34a9dcea908bfe3f56649c8967e59);
  (0x6f44d0f8912906ffe84db3e70521d23e4b2de25e0a8a635c59ee9104eaeadd66, 0x385d1804749ca0e6908627a8d06841f50eacb3cbc2f8ec42e679c70fa562eea3, 0x916fb60cfedfda7953050798606ddedca716970f99ee5bcd687f2f1737f5e036, -0x32bce9c58213421af6d5683fb2e9a20c93578d82976fd656c635b8e5fe29629c, 0x305cbfb73c838f19e093b51b6763739e70c37e09f037ab9ae77e128d46f1b29c, 0x4ddc249d7eb5fe8240e19983cca37a7b594c8a62b1d9958afdb1d09ae24140d9);
  (0xc580c9960556d46e28df5370d511608f4161cb8589c78c60e990440ec69ab711, 0x2977eeea95ef12f3bebc37dd28fae128280e2def7ecaa5073f8512acdb890e2b, 0xd443261d7bac3b1aa28f9760f1c80698d09fedccf86762b478d51e9463563a4f, 0xbb2daddcb497e8af6c5b17812211c0920cfaa00a350530ec141fd41196dd1291, 0x985f770b18f9e612948304c5676199344648770133aa5cf0a48a10034d08c7b0, 0xb7dd6f01d25d12711ea31fca25eed76d41e37c6c3e042ee455f1f86f2ffb5b3);
  (0xeecb07de8f3335fabd6b3a823d6a09496a23bbaa7184b5c218accc3c3f3bbbea, 0x7ff571425b33fad61af76ef9f48ec31751005744dfeee6512b8879519e8e9182, 0x7cbd2223656715f7679a3b4090befa0d9d41641ae8a14af13bd5e0cd1ca13d06, 0x4819ab68947d6590cfb371fa94c25f892d903c955d480fd6633d65e1d41884be, 0xdebe23a74d7840e74dbb5ea204d234ca5f918471204906ae80b4c720aa17bf51, -0x50ad475c94c854c6f7909a4757356402ce2844f3b12207872ef949a5e98a301b);
  (0xe3a5e240395ef3f5265239fc253e77e0e0362387a41fd3f89534da1863087dee, 0x81eb90a37497d77132e81d780fbeb9caf04e5acf7517261db519441cb6357d44, 0x49a2333c121108e2d52522bc9fe819d045a1f12185c54e3c235a8975dc3ad843, 0x1df8bdbfd9627c29ce63adaac877fe99780afa7380987f110b3dc3f489ab1e1c, 0xca6f9abb547dce739f0b76eb7c270eac989b37d335fe1c5bcf58ac2427df2dfc, -0x1be833118c501e5dcd7d68392463e9ba0dbe88b90f8a0f8662f32ad1cf27f65);
  (0x8ac7c86a14900d7752b3f69dcf99bafba2a7b8039ceb208776c4bde584dbc875, 0x7d3e65e30061ab7c0b0735913f2c1d8f17dea893b43ca068f97e0366fe2775e8, 0x8c758b3921e64cfddefc487740f569721c739cdc6d83966378a1b6039cf62507, -0x60c3cdc6a4334264f4cae19e96afd1c7588f739d067aacd16180a8ca88733f2, 0x4b3bfffb8ffd328fb2a904df0767ccaadcb36669efdb944fdd4b6795666c83e7, 0x288ff5133b9c146d259f80d6272fd743a1708cd1e80a515063daafa4a772d42);
  (0x9faf1716b6be9bd433338a4ca53f9160c6999061b33c846f5ec75d4a5c21a75f, 0x57f19fbb125eea58e54cb87517e8a778035a76f0a7ab1eaec9f02b763230ab77, 0x2ef1648b81ccb94189171bb0a660d9845de4a9c32e54608a01b27dd499bf0159, -0x897d72436a87f3dea2b878d17bcc97493ea03e46da688239443891f69df780e, 0x639af66eca23b504ceee836bc0685d68d07113c225ebe13a67fa11c311a2257a, 0x174431eb772662376ae90f0c1815e3b059220940990125bd5d550a04cb49adcf);
  (0x705ef0c9659f24f6daaab569215b772939d5b24e20ce600490bdea53e07351d7, 0x9e1b0fdcabbe2ea5c5a6505cea061f8b2eb45b1e5880775b744ab2bac556a1ca, 0xa9f02a44494758853bb24729825d70511e204bb73d60bf3f6ce16868a036d532, 0xd874dec8bf4340a91cf5c7b8207092361208fb10d5cc765b05666bde60d1693, 0x315335e5ef4c1e32462bcfd6631f33ccff692783e4b4848bc9cc412ee54b132a, -0x1ecc2643eaf28022d41baabd0e8ce8d70ef8f1934073b53f79f73f816e7d6940);
  (0x284a26f0319afb7c7d348d4e535e1f2c1556c71a6b1e1d45954f7442fff32edd, 0x63c465741af1ba4bd1da42c08ec7cef7aaeb6c2bd78f6de087140b2bf1e0e18, 0x2882cd40a9249a2d8742eca6097152731909fac68f7529a9df7a8ddfdd43c089, -0xef72bf92417be0688bca3f0af831fb6f601d6e54d53e186dfeeb88ce86e03bd8, 0x65741a598494c4759f5ff39b893eb24a954f38299884ad3c8024f6ae21b84dd, 0x17e6ccfca95753ee5feadb71bb662023ba5cea49581835ef274f8820ceffec2f);
  (0x1eeb793ec54e1ba4c0d59cedb7a7cb0b999b9d0f1c0103ba6a0e84017ecbcf12, 0x5dfbaa73383f14ed87af01c557995fb1e6eeb2e4f38641a5bf0fb4e755994241, 0x4dd3b29bf31f45595485434f5df1f2e35db21b9b38a0fdf94db4a22b76f4e92, 0xd975df80df605ac7c678e7c9ff29db38fee72461b8c8f769684264b5686fb86, 0x3bc090288e8f1c95db4896d9575accd46d32f7aec164ef43bddcbcfe7515905, -0xa9923fb26dcb983cec68684234fbecf665e452abe76886de6fc8d9020ddb4bd);
  (0x6af9c8867579506c75fc0233c545149c9b2dce4e611206162ae7106c36b26766, 0xe3bfeb347f8f046bc0438ec8eeafba82430ae06ef95c25a36aad4fee1717b4bd, 0x8e008e6f8abfab700808ffc99c178f1b7f55a712bbdb0c9bc79f807ed0b227e8, -0x6371c0c3c0d4c62a130b700c7ae6648e9a8f1ca590e64a6cc26d2ff4dede9f6b, 0x2cb3cdc70beb5ac50343fcf4b2fa01d12220acd6fb607b8dad9516ae8b0f5525, -0x37e5c77a9838702cedc4d824ed97348ea29495a9cbcc0cc3a70c07a18099bd62);
  (0x420d457c4327a21d2aad60fce36ab0a2b9d64ab13b02bc1266c4fcf77f0cb6ff, 0x19a91d512439272ac4035ab1458c90844aa883dc05fe51670c7cfb41ab8243c4, 0x59783482f8124949c3fa5053d3dfc501475a7de568c641aea1c4b363891c025a, -0x1c1eb1f43df5f308de712ebaf0606715e1d6bb031793ec8358b477c4a7450980, 0x110ad884341b7a21fe5e45df1d13126bcdd0e511c90b43508f1995288dcdfb5a, 0x34245b174fa5097ab2a93d734069dde3e141a6e6ad6abdd9a3c55db105ce3d85);
  (0x2e88aa2d7a13bea78b40106a88e65ef20145ccf4f6bb765d919f30a206e97c6f, 0x1300f8abdd53db0545f315973069e65a34c7ac563760d56fc9e54b87d8f5d9dc, 0xb5c2bfb5f767a9ebcec14131a2dff2428b3fdb2d12bad6889c52844f644aacce, 0x18cf533596f181552bd23f25cd8903c60be774e1e544789bc65322b5e1c19cdc, 0x875661d99513bb5266d590d504c5dac076b0849f3683ff540179d032e58fa7d, 0x135c456019bb4878e003f777da4944f69f1956ac12bb08cbdf775b0025f1070);
  (0xc1a42021f95efc66f2518ff785b8e5ca35c2c837cb88189b52ac23c92e73f3dd, 0xa52e488711f5f6b1d4992ec83f30fe147cf7251081e2e0c9abfcf0962fd6da55, 0xcb99965deb732a4144760dc307884f17eb8ed7cb23acce3d92c46e7535204aaf, 0x4b75b4de3ecbd8c17ffdca05d23e4d70e70d8c501238ea8b4140e0d736688b71, 0x9278e1ac69913d2099c62cf121a0930c8b187b56984be7f9f38021af6e5f9c72, -0x6e91e0947b52effbca27c018f3dd46e3c65c02d93c5b90e85c9e390e5a962c72);
  (0x3171dc6dfd5060fb5e2d7b55d28d31009d79eec1d98d399dc2091bf2a64c1345, 0x8bc5e8ddc989be3e2a035f3bac0f239578547d8df4e0baab1b251d0289882ce7, 0xcb65ab6bf2b227a302c952ca9acb9bb73d1f9b7169d04b3096f49200662760c1, -0xf1182dcf2584795535d8ff27c4b8624dbf65aa606f29df631a210dff6dec8a15, 0x98cc90671dfa0b9afc12637b512b608278f9040def12beb4ab80d5221d52508, 0x4e847423d6004ac2d541b28143be2f2c509f1750b5cfbf7a1119cac316299b6);
  (0x91398cc6d76c4269c40e1744e763aaa420d66e065266ba14eded73d0273e095, 0x5ac88a9575a3903139f1a470d66de24d1d8e3404ec592f3a5d42b6a75d407610, 0x9a6155547fc1c33c48465eaeea94eef1170650afdc5f6e7f769d24387fc24a3e, -0xbeb04b61f5f4552b7b09713862a3dd62dfbf45888c712a26b4637755122fd3, 0x52623e693dfea781bc92b402dbd5191e504aae7f58a72499ad7f5a6c9ca31c, 0x1bca85c1926009f06ecae59d61a1c074095a57798888a0db4d899c99113f324);
  (0x31e813c42f277d1c789ffcd7f01815bc2f684e52de4d61f215222cacae89add3, 0xc9886be951b93303b68e7eace10a7519fe7f57b86ae9c4ecc6447e56074872f2, 0x26367a5c546722ee6f58ea9d2bd77cd0a4b2f9126562e07a8fbfdc5d5db580f9, -0x2463b0b1af2892f377578724c92c3861fc131d2ff4e121222cd657493e17d5cc, 0x9baa9f4ef294acfc381344d35ebecd1e068b1713a96319ccf273afb60aba017, -0x159720925e27a509afa17c53f59e6d0d6a6f594754ba97ac28fbfd67a925a73d);
  (0x30d102caac082eb50c3b3d251489c182b789fcad17aabb2e93f1e29a403f1a0e, 0x8382a5fa5a326950af43d8ea50cf0609054305b0109c425a5fc377e611296ed6, 0xbced5cca79ecb1c432fdf99aa4eab87ec104f741c1ae0f21a94cc16b38afcee5, -0xfc879edcb6795bdf19939c5df0545de9bbaff79a28296a6e5e3bd06985d6f2e, 0x94f0bb18f77c2043973b89634f632a2d4c0f23e248aec0d1f093e74006f3dd6, 0xd5a4096e1a9854be73a27d74c696a1c23987e7207d9c3f7f8f77258dc74cd2a);
  (0x9dbea2bf1345534c82b8bd0bb1033b3ec960b31106637cce4885283e3efea2f9, 0x9a0d9ec7ddc98a8b9e4452d76c46e46959e7d00f0efa0d8928df8fac7294ce73, 0x8cf8147dc79379b906e5f19bb7f1a7351a258808a508a8479c7d52a2e2fdbd7, 0x1e279abae39bf442834de4ff86c319d480603737a364b3bd57a5146fcbd2db4e, 0x6133619458ba0614fe3b20d931263238f9204ec507e0ca51d03c45ed46f37392, -0xde4040f770f7368bab1c818bd617424b7b5407c4a709e636fbeb1670dbbc731);
  (0x8d1a4c8660fd99ff12ed1ad9bbefc0735a3fd599dbdf48210ccebe8d5eda8dfa, 0xe452c77b0c97781e565d9652719994e9096b2a6331087bc1b2b4d766ef37ec4a, 0xfd34f9cba8a139dc401a9a07a6d3c064369a80448e8534cbc043e502da0e8472, -0x137361c26a047320f1ff17d034d7c9cbebd867d3ce7665b039d39761e7990c5a, 0x4dc5faffa9031f468454e0baf269c9ca241ad6933b7d40a5a96066e0dc3d4e81, -0x28efb8a457662ebd52f548ec73494226281de66aaa7567ffdd6aa8661670907f);
  (0xaf92ce9e5034c1c11c49f91f07a6b4cc684cb5aba0121b9b7d398c91b99e2d2e, 0x56061912484d339bd490cbf27ea823ffe1f9c3b1467e669c8dd8058f2afa1441, 0xefb8bc2151e0ee23924fc409ea2889fac41dd1c9f08fa4c3b29514da8d68ad78, -0x10799d39af32cde7156f7396e2ac9354929dac8f93b60a306d4a47272f3fe2234, 0x786a0aacc4fec80f07045ed686de9007d332c0941834f9e581b32bdc4329acaf, 0x619805ceca2ff39483c561039c45fef4244159e9423ccdb76775c2c940cf93b4);
  (0x968de70e1c53c4ab84290c04d6e859577196bb6d25705b334a0c267a7131bdb0, 0xa664d121c3ffe5e6764760c44a4d0fd4df22d66f9ebc69bc1dc61983ff53cac0, 0x8ab59acfdd59d81509cfebb7285fcedf5f201c85a728b112bc2b272b8aa9bccb, 0x1341329b2b341677eacef787da9cb66a2bf5db818b58b7112cf675210a509929, 0x588a996cdf47d6a5ed0929001492d38bae375dbc12ab9df8974f73a06827ed19, -0x2f440c8e592a87f0acbe521951bc8dba5b7bed84d6d76f2dcb8ed672433fdcd3);
  (0xb901c9d077e2be5fb59f851358eb00a7e51b4808c3fe58c32b0172d023e3793b, 0xebf2b2c085a4e645868bb35fc0477933d54f0d9feb82684169456958b56a3486, 0x524c4c41ad17b76513e6ba91f624cda6ee2230cd6e549846f7874ed5bed12405, -0x7bf84ae4cc8f506a92b8f288b0c9a64d4ec210437532d07cf6edac737e529aee, 0x85b395b27fffacf0e8cc36224c442a9ae2dd379520b26b5f36c3f98e130001d3, -0x3244046ea58e84ccdf193d3eb6a6313e882bc6b3272a86b238217106df3a28f2);
  (0xb1f168fc537e041934c8aa5804804dce9021cd62ebaa239cfeed0d018ad23919, 0x62f146aee869d54b3b282c53b549cd7149c2dc08d206a4f9033d67267b935d65, 0x44bc4a6bfc1c86df63e7e02907758c41507d37f1c76223a18df2c77dc6e4a558, -0x51740dcce312fc9ec5fd0ba9e70e0a987a993973ece34c52c63a999549edfeda, 0x7bafb6d3c1977179711a5e91c683a63a3c2e30ab6f78299372b830371dd78ce0, 0x5f3b2e3e88474b7d38843a0ef1cce06080ef9b4937ce2be1d1b8b5dccf1ffedc);
  (0x70fa8035e56089fa6bee4dfd338bcb56ff16e32a6d6ad22df56cf4d7fbef99de, 0xf693a540db9071fca6fc04be66187bd84510fcd295b98ef17a6bae8ff26f1f41, 0x35ede902caa24e5774321f500366ac6001ed024c047d1afa40714e88def75bea, -0x360d92d325435880ab89fc92446023f0873bf91dd8305375a77297262622f32b, 0x31dc254dd22e6a01ed04ba8ea993c4162e3ce2cc27f567ad6f16591cf4dafb39, -0x41277fe07916d11b9e6e9bf6a21da9a9ffcdc813355eebb0e25efaaaf4372d8a);
  (0x996df281e0e394acfd95a8eb64d1528dd74dc9d9bc7052c1635f17159041cbe6, 0x11e3a0fe294df893fdeb281609216167ee93beb6bb3917f22364652da0103563, 0x5acd558bc481cfee801b8d95bb869edabab9e1e650ee4f784e3b6058b63416dc, -0x4c9a382fa9299081eecbd29d95ec2ad84daef32278e6ceaccf247ff3075d6917, 0x5bf49b17a7235896126ec9a1780f6fe5f187cb5d4f3d0c24d6739a0c7e3dffda, 0x890f6a20168e239a573e7a3753593bd1cf292a98a9ae26eb559cb608fba23b2e);
  (0xb9369ba449f55fe63b34c62bb041091f839114b4b868ed28b76ddba61b1229df, 0x3b359af290c2193005eee0149e5e18583cc844cb6426e5931366257a826b44b3, 0xac442537d3556b4e199a4b2104b5aacc047ded705285e6a98684d9266c88053f, 0x7fa371534db5aa64bb112c0ac17e79056d7cfbf4fee66992eb030036b7d2e62d, 0x85fff8997ad4331d3094c73e8321451079d9cf0597d7db00295a9d5bc2ff06c8, -0x1de50e0b7f1bd47ab6358a367868f2f244124e70496197fdd7e2264f8d8b350b);
  (0xc2c3a96c26eaeeff7ed0a9c066163fe4b10711b7da24fb4ac8a23f1584a0dd4c, 0xca830b9f72ef0f85bf4e3baf91262f40054912fe54d959d9c23aa6fcbe2af6f8, 0x8677969606d10a9810edad462122e21abcd53a7268cea027eb6aa8c136c8246c, 0x2d4f23ea3eee5f0bd92b1fa9e5579e6d0c59664098be81f3e27d1d747008afe4, 0x942d225375df5536612106ba59de56818251bd6c1b6686417622cfe1c8b1467f, -0x6d06363680ed06775ed74623ccc901f77a65036da28b7808d2247778bb4ae667);
  (0xa69b64a9dbdd7c74070e0ff104c61ba1a7bd4b413c517da86ca4101013f41a53, 0x3589fbd7929e004d1f71f0d7b050c6c07e84c2c97966834eaf58b56da868f9b, 0x518f752cacf4a8abcf509d72bb78381e5c5e2e83c08d7afde2aa67c1c54fa28a, -0x13192de6acc4149e7a34d5d83016cbccaad4f54090355ada92a800740654d3cb8, 0x6c6de4df5668a0143e2470f6cdf8e4a8a0ea2a833e88b9ba4b61f037141823de, 0x819e66f491fb2fac8a68a90c370921d1e33d9a61e6b707f1c13bb26c6215c0f1);
  (0x21c57201d086685acc1c3cc83a4371a6b2631409d33f4802449efaffa6f90fae, 0xa16a8a91e13dda105b3dade903dc992fe956495523b0ffaafb6ccaab9a9f42ff, 0x68bd861fe0349fb00cb10ad549836c623cfde33b7ad44a88af076ae59a953cd7, 0xf39cfafc0e2bdf76e1dbb2281765be14da4bb2e5921a45c853f88c68fa8f545, 0x4747fad2153337f0435c9c4decf52ee8839c8caa8c50e6bb991442339e5d504, -0x14da39743044b8650c791e14edd46f7c3a36fa1eabe5a0a014144d3ffbacca19);
  (0x28d2314b683dd933c267e3e9377cf777816808cd17f5a4fd6368da094ce46cc, 0xf9f84906e2be04fa7af21c6ccf246da952689ab40d5f104c63e6edc9b9d7afaf, 0xceb59dd92054643fa6df4fb44c58557f884f8bf475b4f98acf18d657048ad03e, -0x12f3f1854971eedadf11537b5cf3597e1d13909add3d95bb367dc364bbdfa219b, 0x6825bfc79c84d767180cdd5c2fcc0fafe5ce91cef3c5786d0f4999dddd123, -0xe1edb15bb416db0ba307cb102c3f323f79eca8b11e3c208c2339e98060af15);
  (0x56ed91c246c7f1de0d8225eb497c76938b0dc2f7e0ad044fe1882ea2592383fa, 0xccab43ce8546ba9c327a209196ea0420a19983ba47693ddd58124c1ead072085, 0xe9a41badb107a71a4454dbce4050b447133cacddb9af3bf11363fa93a78a00f1, -0x2c8d737714b9978538408a01a24f8724cbf2fe2d84e87668c338814f0b88514b, 0x1d847a65bc430c54e0d288bd8e5bb5174ce7aac50e66eea89ae8ac95958a55ca, 0xf61e9d9c56ded2c309ef633e8cf8b01b7779add8cb167c85c4b371118f24195);
  (0x95e1314f8cc60bd1aa832a949b5f5338cb09b62754e89846ba7bc79da2f83b68, 0x39641c432eb05ad4c09d785fb02681855f8eca8b7ff0859d8e2c412db88c5fef, 0xf07af0fd292f936ba961860d5badfc1bae8a24381da9bf0655581c7c09b033a8, -0xd9501f3b8692ea27f7be63a4980ed76757a1e267d8069386c9c3edad53374bbb, 0x57bfe97e51338a7ed7352ef2e4b6297ac199214de056b13730a683eee67e1087, 0x5639f7ec3d6058f13b4f6c807aad6154009dfe8e460163fbc054ff0a90c1dd97);
  (0xbc1fb81c7bf226ef23725bf593c5d7af8b5d83a064cba113922f3fe57f4a65d7, 0x5d636ef087fa34c013cc15b94779ac88228f8c47e2e55c4bc502530fa9eb4877, 0x8c45f09212cc87b8514963d2ff39fb373898886e8640ebeedc95ca4822cfe78a, 0x2d19bef5d18ea3f133889a9443debfb0561fe7abf6f0c15fb318b52fedc3535a, 0x8a3e9a57f15aa32c1aed6a7e89d447567a3e7f5d6200603e068dc79d009bae45, -0x1a73f685d55768ac05af1343a5cf728942fc4b2968b488f5ce0f9c3044e968ea);
  (0xf17a2f877a70fe469607fb43914b78cfa94f8817503fcd6fd6cce28fa2f3f269, 0x8ca471686a80694342c0db6d71b2213dc1400216aa6c9eabbc3e1f9481fb14a4, 0x4e53f111b6a226b4ebc6f3cac66e3fe048ccaeca8a9a81396d583a711bea0992, 0xa26d6605362d367f5723c5da78d8cf8cfb0e0bc803477237ac025b5049332001, 0xe3c747ce6a7c791b1cdc04749ff76daab49ee1d2aa6d24e90be96fd3c743dabf, -0x2c92c113fab871c15c74d572a3d015f61aee80f2bf047c22909c261b698a9451);
  (0xf69aa9e484af97281160e2d15a79ce3fdf2156497367e3ffdf4eb9e9b505c528, 0x3fd2b2147adb0ec4c62388d047e49bbf193fd7c63d60ed19dc883c06f0f76b7e, 0xb6d283fcceb48488a84ffe648dbddcc92e3eb012ef467245492f5063033007ba, -0x151341a1796452c452fddc1132749e40e1a865ee378aa07a352f6110755b775d, 0xed8d9bf406b09cef50b8cf1d71c35871c96379d9f5061c85559586b4006c1278, 0x49fff702cab4b5c863a1b987eefc764aea2fc28d671d062ff15d3195882e8da4);
  (0xa0d6953d041f242049b28847bb9114171b57cce5e54a10a2e5dd4fb030afd696, 0x1486c9bdef0c41d0667a1f0dce983d05a542d263b7669ab0a7220595495ec5d6, 0x342c95f18a8234a62d30ad9375305483c4eba2b2823222ecdcb1e458b9e515fa, 0xb5fd7eecb30fe1d6d5a266537ed4fe8d3c7fc299cd7ac21597a67d3e2af628ec, 0x650cee6a1e29e68ff9102aed3b53e87d3528e40e138ee4d25c15a267b5154c92, 0x1b33bbe7cfbd4ee55ced226e3b4f50c4b115965e0de681d992ad4cefb0f1b7bc);
  (0xd0bc619cdae2e0540fbf6e4b359d90dac5fc2fd04ddb13bc1d64d4dcdcf49e8d, 0x1db01632d8e863b2f843d0fd841897e07acb20a4cc4a4335102061ac6b0ad0a0, 0xd5301f618eb56179aee3060052cb2abd3729f761e6b06a55295abd99e035c53e, 0x5019b7ad43cd36c1ccbb4e447416b3b298c4e0fb1d5b5f69614c9626a9f45e4b, 0xaa32a93e674a67bd82b67de67c4b421c06da3126841099f31bc383549389f54d, -0x7784bf166d6c6a41732016b3baeddb8246723d853a61619a07d68d01e92fffa);
  (0xd0d2e62808fa744f4f99774b1e04107ea5aefe31beb0c37cd57b1d4425dc7ebf, 0x5eea5d5c5da02f94ba7fdc8b10bad2a95ef2fe9e94d489ec11bf320f50208f03, 0x98c27b8d84b3d4cfabbeb9cabd8222cdde2ff799f9f293f329ca4418e086a3a1, 0x151795ad50363180c31bfd8d4107c101c04a9d2832d97437d06ba84ea5d134984, 0xaa5763bf7731ae4c8b0b71bebf0d22c9628e804006c7be3062b3f065355cf4be, -0x35351644ab3842ebf31b046bc059fa10045f4415522ca528f6b34fd59e0283bc);
  (0xe689b7a87f30d28ed4442c28e26f61eb336b0f22cd3f01849d0a6c275a9bee87, 0x805ef608ea52e4d151ee5ee1fd3c389cc5b31c133edb0ce917ebce96d76a8042, 0x366c66d8306f21781098ef88f6a89d0060981eec478a153b569bdf406ec17bd3, 0x157a05a62902c55476d01aac65de68b91141f52f3aee4895423e1ee0ef7f4157, 0xcf9bc018daa63158fe97b97a2498c9e00a3730aeaa621507612a55b5740956c6, -0x1e20c09119069d660c1e4ef9bb614fffc4b2c096e7be5cb2164c3dae7640e16d);
  (0xbadd955ce49a689b26a74846d88ad39ecb064c01061d9c99a42c56d1b747b302, 0xb11b78dda7f43ac30b6ad894997e75e7ce80d994c50b2db54abf853af5f439e6, 0x795437f565cc9f8809a60ad7bc375d8185ef75514c62c2ab7bedc49d37fa73dd, -0x71a98faa2982e6ab2953e1fbc773b988948b0dece2dccee48f80a982aad301c0, 0x8866bcd635b8566ae8ef03d2a19ceda2f0b94732145962e257b0e605215eb11a, -0x2393263aead90d622af5604db6fe23a2474c31aa366d37cb646c214e03bbd8f8);
  (0xbc83154d94965029218f652b7c15e2d51a93eae9d7b2e96cdfcb746b3ee1480f, 0x66c01f21f2f7bda5ce4f7094a7efbeb9640b337a6a9357903d4ee55f1342f790, 0x3c1b4d2a1875ecc939b01c35aebd92c6243954d2a7dbb3fa2370570e60b865bb, -0x2af6638f2ce15642da1947e94ebe10ef8c48516bb6b67613590c6f89aa83d0e2, 0x8ad0ca68c168a975d534128ab7b7feae4be984d679f6ae6cd2878bf62926ab85, 0x36c128d4caf5e5133c14e614e61ae54235f6042573bc303cc054c82e9c180af2);
  (0xf36eed2de202d4fc80197cec42aee0db21b39914def74c46dfecd7f99256101b, 0xca8779a695e37afe317caa534ec99f379b837d0fa2b5075ffcb05aad55e06d14, 0x1d00f42c9c856e260220975faeb5e062f94d52cd6893bb6f6f4c63cffc8cc49f, -0x9690fa4f9c1d49ba6a82ebcb4baf46bdbb5e6f84746b587a3c3c8ca0a062c0e, 0xe77bc655ca3d9778df11df19f336d9df64e2c3e0485035596d8827d9ac3f4865, -0x5ee177063c9292a671d7987efed678853e015edc1b188f9a2fbfbfa31edd97c6);
  (0xdba46a5f29e38132fb6f3a85c57a1f4d495478e3fa857d2556cf933b0d07ae3c, 0xfd76e6467f85bc6368248e076a60977b5a74c6775baeff0be38be1f3149ba91c, 0x61595ca63e20f84e3e5a907b8305db1ffd2a3858329b2c09129c0df465b2d30b, -0x47de5809707b91a08b4e18488962df12f475087f70e02c94200ed6fb8504f2a8, 0xbc72b79747cbdc9b48353a434a702066e263635364b0b22317575bfb8345f1ba, -0x2bb3887875789c6015a0a4cf16699f68ec1918fa823670a8296a0fbdaf684d0a);
  (0x6ffa10f3dc4874991ca12f30d1c09cb35548cdd845da7f60b3f8a01b52f2d897, 0xcccc5a45b3731ef1cce53744e58f66ac5e402fa2a86373bcf18a4e20462c64b7, 0x5998faf79d8a8867db7b8477884f4c6ba75e98ae0c2b55539f7ad2afd00dc9e8, -0x29bb3015b8f36a5572c98f6b44e6f27520504fe4bf969948df48b0410053c86b6, 0x30facef8967076757f8ccce5f594a647da50e291867d9ee759e957fec98167a2, 0x15497c7a15c6a467552d580a6e4e378d82fa908846ec3b745bb501cf2152aaa0);
  (0xfe000de1f7a47217fb3aed8a666fed5c862c331a703e16910545b6c0cee8c70a, 0x81668b8979a02f845f82f06b0d0cb523a79304930ab76cc8cfa7efad11ce67fd, 0xdce512ab205156fe4979624ec9636dbf4bc8db880a360ae53924cc298d881c13, -0x555cae24afb0e888698c36192442e46742efe57966b12c4b5edd4a280dbaba01, 0xfc041b8c682b0d0388beaad6e55aae954b0d3768e5e1ba99222b4c3872a5658a, 0x4acf07357a4935378da7a18dc3c9496e3c95fedc3351dc970fd41120329d4409);
  (0x259079da4f14cb7e8a2d2f7fa17050247c0de07478440183fb858930d10b88a4, 0x21bc8c513c978a0fc7426cbeb4895c70527ce5a3c2a914c7de8a50ecb717b466, 0x7d699da1155ed96a546063bff770de874aba6d2b83b662924bd4f186065b1672, -0x8365f9b85c6e1b2c5f683b51556690cb250a5b83053e0a1903b92a05634ac403, 0x58314c26a751323f2828bfae6eb099004ec2c59d74ed248eeba027e26eb48b0, 0xe098f0b9e66ba995d12249801c443bd7df9051b7cfcf914ff7f3245d9f87d77);
  (0x7014f31bedce3225b64e288aac105a796cc38bc2a3d335b1ecf5c0b09a81430d, 0x807e2fe5969084f3283c1419406bcaf4bbfc9dcd006dd5f61a8bf1b5b11086a5, 0xade8ee3969499d24492d440e239866fa9f16d0c4e5d41506f59c8f1152ba7355, 0x253a0d9e5a24612a4c7ec8cce03704bc75bedd902f5e64d1aa674461b33e4773, 0x3112566f534f9c9a4f027aab13bddf3eb5b9d6d7d2d9cb5b0fdee58bf554aff8, -0x297c78add3ab9e15a7af34afcefd5bc124caf3bf42b04b3c84f8333619d0db7a);
  (0xa06f52e51cd1db70b04c5de91ba5f14f9e622cddec9ea9340da9acfd8f901e65, 0x1504180e4c0b34606b548678b48c46418a193d10d98b512cc6021fc5d5b336d3, 0xf21d59442a30909438256dbb4c8cafb820d16d85c108a9d5775fca6adcb9598, 0x187f201c8b4fddd2e475a541f1b58b6d3915a82b1c126873f360e354047e2147, 0x648b5807618ce3cc2b5db431d82950c6c7d71aadbdb919b9e09115c29742a4bc, 0x435b0ba430e06107c77ebb57b0c8061d000855a21dd0f2b19c8cf6bc0de4f8ad);
  (0xb1512bbfc737cb28d343aaceed7c96b30377eff7de9cde18902a6f7c7041287c, 0x22a37fdd73d6bfec94203f929ece7b24fafbbaeb3f849917b272974f348dc737, 0x3992e4eb82960fc749878a28e816a8ce4c495d7de21534e4396c3d4b1d6756f, 0x43b46ad6722705782060eb433c8086a37404096f5431f55cf7e6bc6c193b640d, 0x7ad1583be85134d4a281eaea9aeab5fadd33a8b0a5660ef0c09af94d44049860, -0x96f888a0e0773e1d9c3ab5d7966e8d9fdfab7310d70fa8e073783257bd776b7);
  (0xb973e31bb13a5dd8383682e2be3ee548a78f6dd738af62e045fb7cf8777d7719, 0x1ff742685e8c776d5737c7625e2832f690e503cb5112d636af086bd80d3ce5cb, 0x382ad102730ca3aa8f74742f636f1e97b0177289e70bc8f3c0be78307321222a, -0x8d8dc38e39bfc371e97f676c5cb33f606a646b3a89cd197781e58bfc4f66185, 0x8658b2b3da81b55f30f04c857c673644b54eecbb8442e0c555760eb8a3140638, 0x1efae283c7e3e7b55c7a5552d0b88f2eed6c54aaa3a1a9d51f3c6acd9dca033);
  (0x15e1242cab1270b804fea62d6bf74daa62a8e4bd6607d6fbc74e8ce051e6f075, 0x2776b7124ebdd8c1c4addca1956896d0f920b4687535f29337418687d587935, 0xb1df69fdf865951aafb20bcc788a975658806afbea7be3323e8287091dba7202, 0x76b198102d9b5fcf4db6e4af392ca98c86f503248a7ccc382a6e652cea00f42, 0x1deb5efefb254d0c4a6b376c802afe5331b38391d166dc05c5764e91c3b3113, 0x2856e2956ee0df0996aaeb7787e7e1b0aa40aebb5c0c3d1a5bfb613872fd1e2);
  (0x4ebe158af583f1f4e31f56c1d46ea74e45aea0d8910389a16c6933e708aa800d, 0x2d537f174364d4db6dac0237e3aff90fb623be2462a7c68513386b446f53f19c, 0xf9d0f5460db0a2351cfc07c29279ccec03cd2441aa8bbc21e61dace03bc7bcde, 0x6d5a09ff5b362d20c4bcf6c84609b6df042894ad80d9cdbf0fa3b82744875a09, 0x18386244a9b0ef01a55115cb2739840be1be739912b9f8c5b03ddd62eee040e3, -0xd2ee0ee83ed671c489cafd4c64c6c393181b6337559bef15408d7f7c1371a5b);
  (0xef3b8421a43aaf3bdb273de6d8bb9cc7afe6ef4ec84649c3602ad46070b3b1a2, 0xe5d1377303bbd244ad3b14cabebe426e5016220d2b0cf51cf6774b1d6c8f8df1, 0xae57c389a9983956f477071e76d9298f2e532322d943c62b26ed189db3dfe252, 0x44a0c0d90587b107332e84a0959b5dcfeef93f5140b2b6f05a2998a15fc18df3, 0xdf902e8cfc59fc06cdfc6f1318e6b2f3cd406b0f9e4d518fa61be52de9faa811, -0xac68435037557281ef6a7fcee0ced85e34a7c957b0546a435e60d5ba9ed3f97a);
  (0x84435b4c337d0c20c26d69893d75f2e159c3ac75c213ec0162eca70ef321927e, 0xa2238f82725f7788be20fb21d4f30a8bddf4ac4797a5e5bf84ca3532681d2b26, 0xaec2c572a72a62e7e1668c8a2767dbf6b841fcc93ea6e8907e4fb483cca32a13, -0x1b6c9a89d8f41372881c011dc33ea011ab6447bf682b54cb3221d5c590486d02b, 0x445587df7f8b2b3fa4e027b1e53e96b5657db68fbe4d3a2c8391aafb084bb3fc, 0x22f7592ddec6b0805c8bf202a278b7d907cfdb1e9e3a808186bf21d884a90345);
  (0xb065529fdf6e97e2c62f954284348bf35b2995b33c8e6c93432fa1cf4539bdfd, 0x7303ce44bdf7cc1d40dc23d0a111a9115f988301d211803a3fd4851c31df3c6d, 0xcffa5c4e44d734d57421843dbd0d6aa4dca5bd1a2ea0066ff083d503b6f3efb9, -0x1de31ff875bf386929f7a6287472fc4a4a3e42214ebf62a8b9414b7478dd1dec, 0x798b79b620092d15d1219dd3dd451cd457c440c4f5eaea582e596d586fb6b2d0, 0x20787b97431f40cc0afcc8984339c54a430dd0e93cd07cb752722b6d0afd2cc9);
  (0x8a22c6d822ca6cc904b4eea21997d9e3cbbe3cefbdbf44614b1f4e6a346289f8, 0xd9c773bbbd4f54a890cdf11ea7df91a76f710222a5cf6edca1ff14ff6e088d85, 0x2d1b0ec19724474ed1bf5826e3ef097380aa4ce99cabf05a00739bc9e82b7818, 0x456d2afaa15b30ed8b12ff23386644d2ea5b6053184b5ae2a6a4894613d1b2f5, 0x4a89831a715e875979113ccb39d1ab1ea059dbf629caea2f428cb01456b150a1, -0x37736d003477fd25fa2dd5769e49f564d8b13aaa0ebaa441a1a37a03bf9549d1);
  (0xe55132de70facc3457c994a3b1b3114f53c8a2a6fcd9fef1bcb72ea891ae1164, 0x39b3885592b28f309d3519960eb2251d2bd905cb97e74f6f58de4f10595f6748, 0x510bc651c594d52cf8df64233d11aaed5ad7a210f6170ab5e18360693c223124, -0x58b1d4e26c81b1f8d7cbb12e17509fa2659464bcb6a548d48651e7703d693dc3, 0xcd6a5ec330ffd574fac936f1311ddbfea28dc7bfd0580cae83d12b05092fd85d, 0x8f6497aedb57594b8950b78ace629145b23f882e7695e974cc82de9a72e45598);
  (0xc87ece51760516f2e7fdc4a35b7a110a203e9d6a98750be40459b6fec14dffd5, 0x65e2f7add25c87473be94c60de7a756b2056b65439ab75b3bc68a8c6ffafd8e, 0x7371549330044feb4836aca14f7d0f0fe16aad8a00046c98c0529023d74fdd0c, 0x57ee5e3f61c3235290ac016bad18420f25509375c7b50f4eaf86faf865097f28, 0x9d06612f06df54ba38290561dc33c4ed09156d4c88facea1cab96b0bb04dc95b, 0x28341acb9ca6ce1121416aa6f4fdc0ba90bcc0719e005ae61074ff9055dc5912);
  (0xb9c045867e2deafcffe5f61c5923294d0fba3300d608c89ca08c574698d18aca, 0x1122c1ceeab39040ecfd7fb2dd326e9ede315771f8ab7cda14f2c32f78658c5c, 0x392dfc50ff43a701cbaac14437ee8537df71de9913241a6f3678fb15493f112e, 0x518db86f4b828305976728f2648d27fddf3b77ce324283a409de5fd2f5b94c3d, 0x86c774e4befd692f3c49d5017f4f471fe4d5a7ce630551d6be1e26f73d8166d4, -0x7d0241920798dd455809c0127061b431ac3bec810cdab7ca4c4a69d40c19146);
  (0x324ec0feb32f4c9e1f4695e296c2cebac5a02c8d68201ce41d1ae85118b0c4aa, 0x60fe1e0d839965d2c3161d232635616242db3850d990c3f04a6cf9704f4012f, 0x9a5565ec54b197f3db85eac0aae409dbf0b99575d9b2915eb10cde14a5c581fb, 0x13083d6b8c44181797812c670076ba972ac250043c473bed9abc327fe11e1be8, 0x9e2db9daab2b4ef76c708222297bd00cc37069e80c02fc8a2feab0775cefabd, 0x22d17d5e6926e65749943e6f3b02912d39b501e4b0a3ed948b8305853793579);
  (0xcb3da4a5390440c7999b424bbaf2813c2c29592d42c08828a1b43ec9588b037d, 0xf1f2a86c75c2f07d05253d7f8a9081f0772ef156072c43dc045f8aa40ece7f3a, 0x8f55e1732b4deb1e330b325e456d1e3bac4343d139dd9339e0b62f4dc432f66f, 0x5979aa8b8cc17bd509e31af505f0bf507a88f053e24d0a675c2e6a342c5c28d7, 0xa15ad1f5e90e06736be992279ab0867b1c41776fc7a2ea8772a81020c05ca47a, -0xbb45a02f8a15468b0e9a6fff0dce06b9ec9a91c7ca10ee384845013aae1af989);
  (0x1750c093a58771119ff88f1a679f9da2f894824c26347738ab6e939f98b890aa, 0x5baf0cc1923af73e81118ac63fa42bb7c82cf8d45c7c9dbe4451a7e01ea3bb86, 0xe28e19edf84ab0fdc2a6bee5b67307cb0b3b365ba4d08e37de626661eea418fd, -0x293e4798772d5859db3f7db53292416d7649c8c08f4a3c96298c160dc88b3a000, 0x21f9c1374e3986a83f0ceabe7f916e747b867545ca85dc65bfeff056b19726a, 0xdaf79265e93f3038f48557a2da4c45b6de0e9868289f9f7070020d1b6c1431c);
  (0xebf5863ecb4a5753e69353d1fd5f3148633ab955338599f7a67635191bd2a99f, 0x60bde82972ef9393d64884e71ad0cede5eb0e1cb36931c035abcd1e99abcf6e0, 0x269874d9b7d60acd9051e4d274ec5a707b4c752b3f11e555dc8122c639326361, 0x18f5db71816383f39a4c2bfda990001e73c1639bb53d0f8e41ce0a622c581dde, 0xd97caff183d164d81cc6effd8c3141f9a43936368607e2a4d16767347d9a5e75, -0x4a97d475a259b23689c6b06539c162d7fcf832adc3b05d46c8bad219531ee44);
  (0x39c28947519b982f712e62cf558e5d64fe196912b682840156fa7975bda9d6bb, 0xe0b389ab721e2303ed3ccf24a76242cb696fe66aa34c6bef823d44a149675ac5, 0xa963000eb5a176ae0844d7c0a3edcd721cb63de38436162b587c5d13c078622f, -0x5c42648065c2753381877fe616e2389e06ffc29f7d1993940ba5dd5a535533ca, 0xd0834f61c0c62ceaf8338a22d5e91d51d540cc4834630f63c7b95c010570b14, -0x1cdeedb86fad99bad2be3cccf078fffb2910bbda143708d625ad4dabb33d8f17);
  (0x25b600431c2115f761ab86a7d3ef0a9698d5c8368f95b5fd3554096bf1e0aced, 0xf73dd5fccee586cd3eca8a8aabce4d3a8497ff3b6aa07364380710f6518db170, 0xc88be0831c6658c5023dd4f45eeff01e514f16da937841b7765b49a1a2a1d357, -0xf9afd8ac9ac470d28ff0a6a839c4c40d1314a19374caf0b6107469dcc830b43, 0x58e1d77c58da0fc7a633561e2b4258cbc77925a0340e5a8fcacef6df765c80e, -0x352035fececca942f07296b0c068b4d13bf031f0f42f467acbaec7f141d9b95);
  (0x35a354783f4d67578b1b86987bda33eee09f63ad193222b2d1226f9c63ee96b0, 0x18120e37e1cbaaef32bc81cc36f6b88a4af63555ed4bd74ae6f3cdb9389fd222, 0x8bdae0724d4fb20700232819d520587d97014cec9c68bdea264f3435da9adca5, -0x2784f542a2b695928f8a02300f7ebb2c0ac964effdb1a6ae65bb9de12b4806f60, 0xb3d092e7735cb620d1e10696e711c486b6c875bf9496ec01e081857e723e67e, 0x2ec272df28bad483123f1269d9f2c106e81065811debd7319cf8c0f6c73bbca4);
  (0xe36535f1c8462c9a9277b7749bb569c804e47b2f3e822105a327fe5c42c218d2, 0x90943d999417c99ad51c9448e76b7a185d3e3879a278028e0f6ad1de7ba1050f, 0xee20f331b3c43cfd5bbed87996696355ec43c7805d1cc9261c68a5f9b6636176, 0x541ce3afbb669e0a023c0c1269a85b01b3024f8e396837aa6cca366fede47dee, 0xc9fca5ae65527bc110fd966ad6acf091b482fde44b4955e88a9e091862100f2d, -0x6b0b14c5174969b9521ec6941f09979b5f796451a25aa61bcc83b0ee0c4b2645);
  (0x417074b28d14796d77681564547b4a26fd5f02a0e08a048762b40b1bb5467781, 0x15182c01440df70bacad1693de52b345c445f6b4ef7d508c38a63122fe96887e, 0x4c1ca2d0887e03bd8ce7cfddd25cbb3f467c4cfe623f518764619b2e5b2b629c, -0x7b375ffe1b8d0f678a8a50495354f7577434d191e7059c68f7f39172a58762f7, 0x10ba4ca8fd1223f6e2aef5c5d30d2d2121fa37520c2007e9a5d786dba08bae25, 0x1f90bf09b73ff8e347dc4be123e5386adeacd9c105b1443fc81f9b3cca0e193f);
  (0x402e3b245ad49265c62bb6e64398bb4a7d9411bbfe9f3ad05eaf0e2e9b41d4e3, 0x27c557d2f5b1e3a08415157f13028ed03923ecb3bc31a937b14b001433d499da, 0x6203f6c1b09b81964729d452cbc9063099f135e6770c9a453fdc0b31294556da, 0x187c80342beb1b1de6b375da635adb2c3eae1730da270560317301788aa46355, 0x101725eb7c24b49f272750931ac56ff4b4b69f6aeaba5426abc037335b47838b, -0x4aeaa62dc2ac785ad0c054724ae312bf0633b9677a41621b2cb91859c5de18a);
  (0x37bec33ce82d68bcca7bfe789f25c258bfda1d45afec5d726961729a9fda56ca, 0x2672b8bd7d398c726c6aa17c83cf925fdd317503cbe486525b723210ee09b967, 0x77b8533d4be7b087b58641256e8f09948b2beea444a7948cf3b5361d8f45b30, 0x18269cc27ff37343ba8b8982a5e03cbf4413b3f98932148fb3aa5d00b6727c1c, 0xc23860a8f11fe9b6ca8e2418b735d1da943cfeef7c7769e43bd763b25225f09, 0x49bc81ee8f0413783458ab7716fa44c2e1bf74abb1e8398c1c5fc88f26e9b4);
  (0x6f1b8f6cad9ec405dcccf3a950bbfde4aefb3e583eb3269fce51a053f7078b14, 0xbe6dd2fbe3de09d5d8981d8a5f1ea05dd91df46765f27cdb3d37da1c6f478a2b, 0x95d2bbae7d492addea977676a53f3b02592292871b20d47540507e9aab1b6bd, 0x22dbb9838728b23407fad240057699350fd31484850a06bb19effd7a04e0495d, 0x3038e957cfd6e594c16a378df8a1556e0f3172ac9c5ac76254bb34655eab9a58, -0x41f63d029bc105769dc8d4531042573d538ce8763c38371e1438c7e86aae50fd);
  (0xf519e95f0ef1cc6ea451aea950d70bb952bfc557970838b54afc76500f23bb39, 0x631bd3b2b7828117aa3cd591235aa17e0e8dc471312d614371e0a3751e946fa9, 0xad97eb85acb78938f2c478aeab6bbed59d495338f84ea9380610e3e746417057, -0x1970761e8e3c8d9f44ff5e6250aca982dcd8fb5e6fb5f8e6f28ed598495749a41, 0xeaaa9b4f5be9e905f296e83d7be813dccd66ab0b96c9194b51cd8ddd1e321032, 0x576eb7927fb5016945f428cabfd72c519b4daa6a344b1988914cebbaf334c05e);
  (0xf01f7558a8ac27d23967b7a3874f29be9c315b86af428d0af92b2eff88d93131, 0xb49d8a6916971d25e470faa9438787e5dfbfd28d2f041b68d68a500849a501b8, 0xb480bfd427c5815faebc590e8a830dd02501d18f82b8c2d9be5b11aa94077e4e, 0x126fb93cc8cdc41e17746397a6af256e98538a84355116110bb74464c7480d05, 0xe13affe3dd85cd3d9270507ad07fec133c24c5444638b3291192356497341bda, -0x4c739f5c9c04edad79240e442e3a6e27e160757a86001a9b4105a4467252dd84);
  (0xebecb90bcd6d4627558f995fcee111cab9fe765fa3cfd3ea4024cd084651266b, 0xd68ee3765f143f8ac15352a4f0f0d9689eb37b88608c2cdfc8ef877442c2a1d3, 0x29972c8a8e84e2448931677e5721486d84d18a919bce11a31a1f201746b85379, -0x319790409c4fb05266fa731fe60f2051b65e74e6620023d450af466f1bc2708c, 0xd96c76a15eab6fb8cb3c7663643aada2e9bead599bc6531a905fada5523dd7f6, -0x1f47efc643bfe0429a2536c4f9816559ac419d3b82ff24926959c67409a6eb10);
  (0x7c70987a908b9bf0485c508426111865445f803405bf96d8b593fb2fd0273241, 0x7c9472cafcbd2620a7adaefdbc6e304c4bb8d35ee6800f33438ba28bfa1d6997, 0x164c4918f49b97ac54c54bc53fb51557263c92c7e25b027ad8831f03384fec1a, -0x2e9096fc45070ccfacdd94e9a73b0f56162ce028cbb9ea08ef8185263ab6bdb3, 0x3c7d453c82177f8d1834114a176ed1bbfa59acc3c7a0ffaea1184fcf1d487e31, 0x2bbce1bc15aa9ba5c2403a51f8be5e68aa1d946e8b924a0d6ddf555ee90efc69);
  (0xf29ae4d2d97f32faeadea70162178ec64b002ca032ac8f5ea8144b941563c44a, 0x70da0a77d75855fa0d115c76fdc9a05d65f30147a8d37736d60e7d869a59219a, 0xc12e73740939499cabb66962bd59dd4ee7a397ab577e54eeb941bc9a9bc19c1f, -0x8b9d3a04fb5251f6ed90eaeb39e2dbd9d58fc6a62ddf9c5d921b3771f4b0106b, 0xe5e93656bd6a6a7fda3701467b2c7cff4cc1bb31134690f7f4d4baae6d116d9c, 0xb1d4f3d0928432a4e94a00866e1a2697cb11d7a4742d8f627e06f6d0c5e27a9);
  (0x303839e8e10eb66d714668ef3f51865c92d1687678bff90f9fc40084ad3e666d, 0xe365bfab62e0f7cbdc056c6515cf621a5f23dba5247de0cbfed7bb57e79c46a3, 0x9ee5353ae147f434f4ee6486141f2e950407d13a2824cdf9b1b8f1e39d34d9d2, 0x11d1858843a94af1a6fb6cf44908724847281a351b531287180a9f098c972bc, 0x9152210b76182ea181e367b21d8f5e469733a014d498426966eda121b20ed06, -0x15935a729c1834891e001592ecf61a07ef9f884ccfe826ffb271ad90d9bfb946);
  (0x9d22e7c2d6a82940b2c38b005e55cc1ff458bd2479b19f644442664c83f7f7ca, 0x1aa78e7ee3eeb7543c954f40e6520a041bb34153dce52df4c388c119c7b77b02, 0xd46d559deb04118fd14255f70d2cd036285274f530a5b7a927dbf240f733fff7, -0x19ae857305a658a42d6e256c2c55f7c6ad0edc6cf5ec4776be839ba0745d8a833, 0x6073d5075cdc7af1d5c230898b76f89f4481cd3b24d1dc3f7fd702cb1574401c, 0x7b3803273896b23f61578aaad7b0f3df57b3c5ef5cdbc27b8e4b6e575265a901);
  (0x9a6875fcb525c672e3db679744b866158038714d04c241cff5652df388d51fe9, 0x29633844fe8eca1edf94afab4bc8f742ed22817fcd2d909cffb272b611a1eefb, 0xf4a87eb6ded2fba1489adbb06426901cff15f76beb85bb70efd6e96104fd036, 0x378e77fbb5106d20f065eccd89119a83e92a37913d2795fa55db91621f72e0bc, 0x5d21d8941da5987d216f418ebb79f13415c9e8922c0a1072c9782cf82dd740ee, -0x8e2e728743ea11742fbd4fd1918888a3b72340a3f10ebfc5c6dbe3cb1fbe34e);
  (0x54117aa7b7952db8d75a793ebbc51ba044560f15419ad9fcebc89311f10c0f16, 0x4e274b4e114cc3def8053c241afc59718be0ad45906ebb21709288af666c48f8, 0x140faa1b3be129f9a380be3db193378a63ee233ef155f607b35ff2ee51955cb4, -0xa07cbb061ae4821b1b55d643f409a28bca846df1f76dbda34c34ff580578d43, 0x1b9b79af958490ac97bc6c4cfe60cef4be074bc8e2ac3c9952c8bb5bbbff9b76, -0xc12d8e1c518e8b5f49bacc7177a5ad270026056fe6a3077b573c5b7cbbca9a8);
  (0x70b6da11be09473099083ba73065ce7697ea1b740653f53250992927ae82199f, 0x62c3f13b68e26f252d267a03f5c95fc6f3c6ee63ff3a85929a024be8159ead85, 0x1a309d017ad037ca73ca3295fadb3a54e5a99b81d432581dd5be8b937129ec93, 0x11e1667ef059829d2d59f920384de150d86860d08b913a862758041911815287, 0x31a0816a51448c5e568ccaffad218948130536ff04ebecd611e30c53d032271e, -0x9134184a00de3121801dba56b52cf4d0a7163c8d3ccdbb9e481253647ff515a);
  (0x7bf805fae1d6b6961a5848e9f1219b42df38469da312254a6c27a124675f4050, 0x5bdef5aee68d20a51f719e071eac232de081a2e7a24386a7294f15b13f0e5696, 0xf19ca4823989b84b7def7ccbc47797069885acd06b1e015786e280e88d2ec4a7, -0x58f259b7c6340c9d531bcd39a6ca4a6e46a461dad43603c27dbddbc68bca63ab, 0x3c08460aab3da62641dd7c5a99be09e330e24d5c75c8fa6e917fbafae3a92f60, 0x356b2d96d59ae8a20332ebe23491036649cfc0db90a339ebaf43e2e28f645f6);
  (0x8867c0951901ce0759ff0ff79c22d00481e0d0b5b6effa874652dc76d3479534, 0x5173c8998afbd30e7b673e3f1d0e08ccd07bfc2f6b6cd96f7b07f2eed84976e3, 0x1c821ba937cb9d3b7307d29d417bd529c8e15fe23011d13c6d9fb6df12f4e1ae, 0xe54605bef9736d1b260ee324cfdd8af6eabe1376796a67d5c46656032ec5a68, 0x48ae66aaf36c06b46d1fa203fb72fba1883f752a056498688a54262006bfda31, 0x58d28e8ef72d4fe526a42422dbb979e3fc52f91f7432ebb5339d74e514de047);
  (0xb0c0675e12a27cb6efa5d5efb39ca8f570ce2e8fcecf8f4513c2e040a19093da, 0x114bb6fe3fba1393f26cc0ce669b6f4af2647941f5900fac5b3fa0dd408bd70f, 0x198ef178d0c820cb3efb153105149edc3d196bdae46e6a3c0a4abb7ea2244d94, -0x2661abb532c2dc110d73bd952beeca3590e2a4bb0d7804774edfc0e35bce83c3, 0x7a091ebc907834c70cf58ac5bc712cba3d5f5db24eac75da7be12b8db659fe0f, 0x2c4bc40faaad211a40e48204867f9ee2a63384f5de5d9bb6b419531ec0a66fc6);
  (0x859a1e9a526200a8fa4bd43bd726c46f81c1bdbbc0a3255a55d2795dcb3e7cd6, 0xe246ff26dfb9532dd6397cc40fd6a2fb9b60afe1a29e7859ad0073b7679a1c7, 0xd0acfe2f54f93aa161ab6fed6563a212d46eb10e2aaa50bdba3c68dc8494e645, 0x34f461f853ea3bd14a16ff8019e00f722aaec4164fe9b8a543fca880030c398f, 0x45b980952eed7aee8ff341a9303f26bac828cd5859aeff2443e73f7570349a68, 0x1a54dea620c0dbe064d0a5840e4ac5366ee129de9decaf350e453e5e1667997);
  (0xd9a538c46f73d17558404e72f9cc39b7e19f68f7013034164415dcfc7cbbd006, 0x643eb7a04738741f284f1900a9cc2715b3b7afd9b40cf6fd67477be13a32f72f, 0x46774c4156dc15989a358f2dd97fe48cc72a430ae64b1271a6f76124220d9b29, 0x1607a9e2d415f158e0fbc235379c8fce9737d9ac1812076049a67712d82598de9, 0xb90984df3ec08be276627e38edd28625e1dce55fd038e00052b15316abd1f4a7, -0x4933d8ca617adf271dac9d0483561decf332f97819c25c6c52996817635c0c5e);
  (0x7bd3208a813df694ecfdfd594d8f7ec7f1c429bafacbbcd59422449f59ddd1d3, 0xd7b78cc6efd9b16d607a3f821f35b0eab278bb133578e1cc41f0d3911f51c46d, 0x726b0ccd00e0b1289916b2476617eeeaefec7062706f20e3ad3f11740a9c85d4, 0x8f52139b1680a73a87f2b03e09df3fca1e61271fc4778e0237ce154b19bbfff, 0x3be48f63c0a58256aaed5173fa3cae84ab21469e1dd74150b61c139dac0869e7, -0x37da49aed5f607b1b9cd9e260d90d44f12f1d91a83527c63243b93308407bc57);
  (0xce052d41006f931e844fa208ebfdb072e05baff1b6fefd071fc89bfcf1dd9131, 0x13d905ed33907f7263cccb553857defbc48f7b8fac42df2f06db3669627e1d02, 0xac78cc3c44de8d56f8500b3b8f79b94f84433273a58d28ba45bb0085381842e3, -0x169288cf5ff7251e921ab277630c9fb3dbf1bddf921c5b34582dbe7fafb08b853, 0xa5cc54ef693d7fc94e82f486c88fb806ddfc5b2478b743f6906bd957a73e8f45, 0x9da1067bb14d751436c07590575826fc684b3475c4ab096dc1b08ba50854e8c4);
  (0x3ea36db43cae99654cb389d2e76321e60c6aadc359d36ffe391bbeeb92d0b94f, 0xf1c73ffed768dd96adb1517a13087d05267fe016d4adbd0f1758e91889edb9bf, 0xca275b259d4722f744f7f871601e3ab4487f16986bbd84f28dd83c0054a516ac, 0x1833f6ea790e46d296fce070c9ae57a8d388b3c740dda4cfd5b35b47eb764200, 0xf5391782fecd3367ab0ec24c810c0b6e943f4b4fed286ff1c7bf0b25d46297a, -0x364d5fd9edbf433ddbcbef4634e76b4dfceff829767164787846aae958f7d262);
  (0xcbb0474cb4bad75d0909fe50e4c14fc30891d95586a733be3a103395cabcd6a3, 0x18a11728d8462ea0b9e07ec9b9d7bd8746ec7d11c59f18960549d774efa93776, 0x5cf1042051487e5ac5f017e0ae41e008f3c42742af5b552e579fdf7531e848eb, -0x16b5973712acec986784ab143ea2c29de735001b8df77354753cfabc0e933bcbb, 0xa2110a75c3f475b11e3f088b6019945e80b83e0544d416ed037c653a86ccc695, 0xacc6c9186a64b2fdc7f381014b09c39ddfc4189be74e7447a85b4cb63bb83de4);
  (0x31c85277a1a9d7b53b1f8744495c4ad0689518ec748d696e93d5407cc1c1e40d, 0xf2784cb0623e8a5444a97862661e689cada1574a008b829ca85a875cfb3ca080, 0xaf8684cde5edffa6ddd4a036d79cbdc0bc479744c7d68761ff6e7962422579, 0x124e455dfd3bc83bb95e9af6910f57550330c9b6a339f829508762b727d54edc, 0x9ae4c52c160796cebfc2969202716b427955d9a648e9a13895f64869c5ba2cd, -0x2a5ca78d7f0c7f123b5369880212397ded24b2fbe30beee84859b019ab48ac66);
  (0x16befcb9984b27aa252f2e67ab2f21c888004260ded36e44c9575e5b3acfec1c, 0xb59d69ec607fe623b7634fd07c91868e806af7bfd51f20d1ee3e57ec15c66c6c, 0xddc258af2c1e785f7e9c66d14e84b98785ca67fc6c7a081e4d365fa10eb26880, -0x2b0d7cb8b525ec5bfb643f30632c248f25ad6cf2eb56f9b1b78c01e553b430b88, 0x20561ec0328e4c18c42f04ba4da77c8e8772e5b7a3c7cd83e0ab608a7d828a4, 0x5683604bb3a53298fc45477df769d56110e188524f415aab16e6eecdc907f77);
  (0x22bb5fb125ad2d5a3bf3106836eecf80cdaac7b4bafb509f1f2bc719129396bd, 0xe2ecb33fcc0bd71958787a4ce2361d6335a8725c38b33bd5d98488d92fe7c131, 0xccda99b9a511911a708a11cdc2e2a02815844c13e4f3a36d0cc876700fd7f04e, -0x886ed7d5540d1c53f1e78d528d3efea4f02bfdcd9ded27ae367636eaf15b2ed, 0x4b64e8ffe93ff97e06d58fd5c73db068c78b10c6c7b6fcbf99156dfe0d774c6, -0x625b1976aeae9047148de66c214c7fc4c76376c9c980411aa2b068c5f99bd7f);
  (0x5f49afd53714d7d41c6ba01221ab0ffbf319938596ca91a83339dad27ddfeeb4, 0x6588d734b6a3fc7d1063ef8ee7f1535e2fba78240e34c420654d491adec889a9, 0x1d2dc1667d9d0ca1835c12fe09d5b75e79fc72c8ae12212d78f4b26e8c6b263c, -0x1c2f429db4fbc18a25eb3f6ae52b70791b2f4360b6f42d376c48c5999bce52cb3, 0x2377c5b5ff4014f5b7ad3270c295f8b4d94709e64a807d30fe20aab5a6448c45, 0x2eac26418e96f762780c0e18284ae57a1a987605e167706926e6b5bef91ae996);
  (0x1251101d013de55494eb0206ef46e43949ceff60db26b40f71c31fda4dbd22ca, 0x62be061a0ac0d1409f524019755ffa54738f6dde6c035ab0e1417374721292ea, 0x1a1c34fca5c16897c589ea9350541746af08c4270cd71f6975fe1e576aa24396, 0x13b96c14132690e54c35329dd4b520e1defd02b3a49359bf5365d6dd994f79f, 0x14f7fef478b20dc09295b892071f2d11689eb23e140c695c21bd36046ee376b, 0x33250d07952e53e0c2d3bede194d40e142be8cd770ab12ba1bf677d5e249e4);
  (0xd05060b5ee9f51bc04c622c5d15151d139d17a25af69426dffdf6c1b8ec75d17, 0xf50188241bda7eecde29321ff503f29966e3f67a28c354c5743ec55782d04ae3, 0xcdb2b246b581f222d5766f935184c3e02ab6226f5cd5150519fc1c25f9788268, -0x47c3e1b50d8b3612b23a10c8eb8b76332ea53cb92bb7be78080fcd4e9f52b2b8, 0xa982b6643a00fca766482aeac48f5c625a84145e93cc6a3c791daf150def36da, -0x7704c60213deb62fd9c4197d5a8c2e2b4d2154bf903fcf3bfcc8c4f67c0fde1d);
  (0x7a9cfeb9a020acebcbf038ce0c60eaba742666075afdb252d2509d83288341ed, 0xacb30ac3cd6759c3f721b75849577807b7dcb61a61f71482ebc26abcd9945677, 0x8d0f03b8279391b059dd92fd1cc73f81371aea6e58ba189decbe47031a8ee1ec, -0x3c76ec494817ce0f98cc430ea2e2b35a92a3ecbc75e08761530f6c206c093f90, 0x3aba03105c4f2cfd284834b97f836680e7406ee173d87366b71e17df66207329, 0x22a1bf869a6b1f52461071a23676a844409f659e1aaa95c5789f0c6884263da8);
  (0x2d9efaeec0f1c19fe91203e57aa043f238c962f7fd2608d754e0c83023d1d7ec, 0xb0721956ad0787dbd89ce9166452c23b8d8c9139ba198b7096fef757aeb94702, 0x2007681dbecc3d6f920ea3bff591b252da40adb24f72de252fdb5e1467f43307, -0x12b3cc0adb9cdbe90c0c775fc52894a7ce4e014cd1c71deacf2aa4700f0e5f713, 0x82146f2a4825800ba6fe6e6089d82fc2871135e9f4fdcadbd86822f9fd545a0, -0xaae926e2a2fc853a5a961c4ebeaee6450e39c02aa1acb78f01f97970b22557);
  (0x8f8e8c5550e6135ad569f8dbee7cf7127bd285e193cf09ec1e0d58c8cbd73d1, 0x3c33656d1ffa73384a9c86623a2a7e4438ff7898253a864aaeb127c972cab860, 0x924361697e90e99ea6d94212871b1b694d465e2c351a5939de7d9d403cdf9fcf, -0x2058948cf570082e2ed10cbfa1d2aaf17c02f3c54d73c00c4724160272c0394, 0x508090274bf435c76ab5f432f70c4f6b4df75a89df733d1176110f8f12d459, 0x412fc100494812d051e2f780af6a35352e3236ce5bb5d41c1becd5203425e6c);
  (0x50af3098568928a4f059a656251ccd828ec61fd103f7aef1d8bbdb2a7cfdcc57, 0xb06bb023120212a538da0a757d187e258d46298cfecef69d223b2dd2c5d060af, 0x8ce668ddc008efc04e179fa86f2c61cf592c9fc1c96264445a622b8a78bd7e64, 0x31b9e6f24acc903d617b765e70fe00bfde6f8630ee17502b9ac917ac27ec5c32, 0x196df642af958406f7173151a248032052f40466ee3b2efaa3c56a990a1269a2, -0x24a11fe3a4ba7c1defdc03cf9adb0d5ee150809db715b7eb3af55374b4ccb60c);
  (0x77537523a0f9e036da171fc6b68732264bc189abd83e3a01e4210174c92705cd, 0x9502798142203e56ab97750cf7f101871839f086a8677dc8c437b9bc1da1fe7e, 0x9399e04d57f2f50288efd4796be46294ebe5b4c245fa747d59189175c80a61c0, -0x1adfebaed4bb93e5611856eeacd0700b31f027c57e108190547f474af0ffd050, 0x379eb21c4a5c469432d1a90c9d9b91954aa07b4f4d7a690786e9e4f688178dd6, 0xcc6d80cd4af4f872fb33317895d5c4aad474937d26e206eec6803b72ce1e6d9);
  (0xba43ac8250597a7f1baba0cb14818cae1927aaa9085adb8cbfe7d603276cef8b, 0x39bf1efadf2cc441f53302814e3db22b3c332746fd3d2d5382e524da37cefd76, 0x94560ff1f7e7b1cb26082b7695d51d63c43c4ad541245fb86ea1967b9f839b66, -0x2d6a00faed5ddc28e5651757d302b2218cc6ce1a97866e5b55cd860d891d7c8c, 0x878668911d377324c3712399d6c3155cfb1232416368a345a1e74f6bfebb4247, 0x42670fe60abc0185b6aa5b0ebb7bed86b1cfa2e2fccdebef8e51338feb3aebb2);
  (0xa6aca545ae01ea16bdffce17f395c4d7e301ed714db271ed1ba89f927abe9fff, 0xd477f508b1e0591e84a7c76990d71eb98a34e9001fc22d59498837c7346fc5a0, 0xf9681d47e7e085028a1e1a1bac183b714a2159aaa5e74d7fc67e646234c27384, 0x27ba11a5875d254a5507c995f4f8a975e54ff5d39ae3ea9427904b2fbbe0cef7, 0x6c845ac4ddff336dc8072a6cc02852f669eec79c98f9d620782872dd39c68905, -0x64bc32e006dd676780335c6a36e31cae7f9d9e52462fe6fc11e39750bedf16c0);
  (0x6f2565ed45d1aa89d558b9030a0c3d867201d33cab147ea31321deb2f3ad25d7, 0xef7fee331a7cbadf740aaa6662691d7e7284c4e999b5422007c5ddcd009861dc, 0x2bef434a0523553f557ce002c636f18040cc60fc04ec5b1dfd86ca4c20440d3, -0x138738a0d11e66e64af3aaab7b37788745e8ff4606d45d4f4adbde5c5c9e7e248, 0x304173da61b715809cabd3495986029c7b1ec0608adcf88af865677474e4ab35, -0xbbc67f3998b9e320719278bb7fb3f38e7f2e208746192b431e01be4decd9cfb);
  (0x7f811ad2e7ebbe3b6682444d65c057ed253401ed027330e484f7f09a89e09a0f, 0x6f5d48c3246df5b9b752efeb4027826aec763e77f393b4ce39ded1232bcdf106, 0x10f5b4d3b82687b4aacc4324cccdcc11332b4b370d2f46fcccc4e891259432b2, -0x3c224eaa42485ae3bc70791bcbb1cfc889bc86ece39342a601c7d99b07b70656, 0x3f8159b94d792731db1603ba45f6af1b143d39ba3a86ea586aeb6f0388c82d19, 0x3fd1cef4fdcaa861bfa93acac88a0884dcd5869a12a27ce98b2938292a2b2ec5);
  (0x61df2415eea896c50dc95ae4f5d8ba84d636469205cf78060fd6835bb68f9484, 0x9a4a2a9489b81f6bcaf4b761adb18f3fe202f44dff028e8d7a1bd2258682b690, 0x9a17b9c560a645a4a4d124d841b240af9832ec7f2789c0facc84c3be674168fd, -0x845e516406f8157e6fa44ee37b01adb19fe014f81fff280e1fbee6d2fe1379dc, 0x256adbd88227b8f8704eab3f62dbdcc24c1cbc7a032687414143b05f83243a74, -0x10692bf609fccc7f3d018a7ce8bd8816a0b98ce9eaa9a1a1d222d8c97d5ae217);
  (0xd5c24241f8dd70575e5ae11033022168669469df0da68cf91f95b4860de7843a, 0x8f62a40779d45089fe8512e4f23043ab26b25d9d0ad0ed37e276541dca33f51d, 0xc6c05eb0c10b09021c61d2ff7522dc3758d8b2666824ab0b4fc45428dc72ef97, -0x1da9e702cb9dde10e3f07a62c709cddf9c685e6cbe8979ad9632988c06b0a406, 0xb27cd5aa4543c1e227bc1e7b46970cb302547fd7259f2f967a78d0e438c1ce91, 0x91ae939d531d6af3d2049dbce852aa7783b5b609514447119b1948901fa8efa);
  (0x9f64d222f00adeecedf8d44fe928efd8228c9e392dd0d4ee9a1da536ac09ca25, 0x154cdca8238627d880bf85b02c8e62baa21b0eac826e6832098d2db3c056b8b0, 0x87723c468a82e35a6e497cd1b341981e572257c9422ca244f69c057c69de2120, 0x691766c5a4515aa26779b398c9277ad53633c88e524fbcb4b053b107665300b, 0x633e64bc3df65ffef26951eeff4f6f350de5525398a4027bf1df519462dd6baf, 0x4c039b8c9ec28b56c14dc67991e51f6358771c42b49ec292c06134f9974c808a);
  (0xec9ff96fbab2ecf84628b89a4ddfc429f208898f2c6ee5c88f813fc79dd030e8, 0x9d75a04730cccefa7f2bf30de239a2356d33f50cc2130cc6c997b81166ad69c0, 0x95895193dec212b11d75b9d59b8004f309cb29f7d2f3a4c08e96b11ca1e9eb60, 0x5a166331cd350a69ec2a6b08670e0ef642b8950a405e854a8562e12dd12f7351, 0xdab757ddcc0e591f9e0f3021083cfdf4f22a182f351163083f7778ef71912daa, -0x7ddaaa533345af58d43d034b6c1ade311684febb5498f90f448efb3b8817c300);
  (0x505b949a0485819752edd3a1cab6bb891f406a315fef9e4f376c1e5380db3f37, 0x328c1a20deca1ed2b9a3ea69a8374f889ab1e2fd06169643d132e51d4bd13364, 0xcd8413848628857fc0b1e6ac6b546c0df835e6210cce1061f781d0b30eec92fd, -0xc4aba5b286a999e0b89e2b19bd137006ba0d70b43762cae35191c4f8a12cdcc0, 0x19395da33e9519cc83f4ecf8f9fb78ebe6eac12c4536c828fc95ca5a23427ead, 0x218f38fdfd2c4002197ce5cd3e457f98fcd2023c80a2bc428db046159236c2a7);
  (0x1836b6157ac58d264ca6335e7aaeb47247d1a322434099c95a22ca94f6a15130, 0x1ab5f3a5141c8a3188c5cb6ba7aa7f54e3cc6e1160e3fae4059d81649dd7c1a8, 0x8ab4812c5091d16a4816a932f78bffc6ba356dd650f6cc8408776d9653eb4e45, 0x673c8b83abbc73f8b5cff4250c16998d7c214a77ef8ca518da876db952d045e, 0x24a4dd55997622cfe83ffff52fede65230a84fe3dee8be19321eb021b4604ce, 0x2412bbbf878a4129e758e355201d03305784df82161425839656d56502dd07e);
  (0xca8a7ba91d1108ae6597d19155efdf628c57738c64375972eec30549b80e88c2, 0x9759c7157f05d6112dea16a3b99067693090cfaa6647565e1c69e6244211d815, 0xbfb97d11bb4681bd955dbe5141c7d992792a41dd10786175484a076614b1cf23, 0xd31e880602aa5719b224753525830d976b2e9aa7cbfd7e5c66a683aa0b06acd4, 0xa03ed6106fee29b6567b0762fc9cce69a14a6205e0fac312a06760b3f62280df, -0x629cb15bbbda2a44d85481d327b01e3009b630f3612790ca3c33a88cfa2ba182);
  (0x33082a341ee4104e7c88ed3d55651c76355c15765104cd271f72566f9e61a24a, 0xd90542b85dc4b126e173d80a543f373a4b8658a64ccc49be6c36c98044f83ff5, 0x26b6efbe29b9417cbd13b5ce7a76c7d6be00280d160689676045665ccfbda5e9, -0x67ef3fbc19ab0700788bede6b41f238a5f53891da52b7fefb86369f0c9a2bf2, 0xa2c41136e85f17fb040f6d43b5bf3bafeeec1bd1cffb70418b4b44f401756b4, -0xd1741d0d0816aa2c73ce6be1396d3cf80fa1dfec6fd292be0fe48b13c9e3ccc);
  (0xd433125292311767d27c66bcf399a86f0486dc669d6786b00679d34ed9140381, 0x7a3f47b512a88ddc385305c0887079a15ee868f1fa116f50d0d55ff7f2230733, 0xfeb189c6fb7fe70d3d099bbda0cf8ef7f94f125bcacee19fded1b308dd0de517, -0x1e7bf522784accee11d699b0b979ac9ef9cbae9f268038dc10cbc2bc4b1356759, 0xafe4a089105745842a3587f29cdc3c3bc731278e8454de06ecfa7fc6f02422e4, 0x4e8edc18390afbe20b0699eab0d0477bd563f57afd4fcc5e654ce7f76fb90242);
  (0xf3d03f774ef6a7b21c459eba9c9a500ca487cbbf5c59fc9d7d34b154778fd278, 0x42d775b7df0d8bc55c46f2f3a653424fd20178676bed9edac68047e20369801c, 0xb5e4bd318ab98f3869c379765473ef7ce9f1a6ca43b1dce99da4e465906e737, -0x35136288e567d276465a6899faa43978ed0801407b4c6605bbfca144f210680, 0xe83501e3b18483a48b4ee9d002c778a1b5f1350a78baf27c4f9272d47f61f58b, 0x34c49e6a54bd015dbd57450bbe4f79784eb15a9d5318ce8892f2938df12aebfa);
  (0x7ae9e90428df83931ebf54a3fc53be4eab3d6354537165a4b513f5d69cde9706, 0xbc0e4343526c44606b730ee6794ea0bf8a66959f652965c44bb41fef1a65c998, 0xdb7af52efa870562965e8825844ea6b216ae011120ecc11ea8f1855d217116b, -0x2970c380019747016a30691dd3c6bfbe3a007acd315a395e6697a8c177924d9c, 0x3b03c7d1f4a002bde620dbca14998a10dd0a1452de608be4657ead843970a154, -0x3a32df2a6230ac8678918b379f5b215d69f9ecdd701630ebaf0ca213c5fe090a);
  (0x1c4aa81af5b9344c1034fd1aa59204b3b918445364bc57363959c75ddcc8fd5d, 0x16d9886052a691616b1d95403afc0a36100e9ebcafe7e679ce1ba768b820f055, 0xc2aee44a71a58cc304dc25eee3cde4fe171132a1458bbd0a048d583d816ca7c2, -0x7a85f01acca0c13adaef8d3b0fdf5138898f9365f92fc9f456ad38c4694097e, 0x3206a8b83b9f7dcc9a36ecf3639e2654ceedd19515b5b994f3e2566d252e8b6, 0x1241f22ada2a7d57723117606b0753d1feb6d86028c88f1f351d8c8dbe8b96aa);
  (0xe9e5bad5bb1b48b2d3ee8bdd649bb92e76096dad4fad0e9eb7652371ada27633, 0xabb44325e5a64b956732b9542e9e36509309d88d861b809a532a377bec3cfdb, 0xd26a3b4fce8d92b0815587507b7f562d282d5654ef241411c984177bb37de6b9, 0x15da16fc408f20c1ef28c4a2cffdcca4d72714d194885688311bd671567fb4161, 0xd5b3fc40d953af7a1f831808356833152b50168974e800e3374f0f8b4ae390a4, 0xb126bf8ec0860f44589d7bf179e75908ee841d2455cec38ed70a07ad0c6ce13);
  (0x18b5666c8ce437cd1ffeb07a0bcc2d4bf1c6612b504f3ec0964f9f82304217d5, 0x847818d17a78f4376ab9d6048f81d5419f6280b3eb06c1e73a4fa5f1dd95c802, 0xc7de9e042c0543ced81e34a8b224894c79ef2b6aea310c812c584f461ce49486, 0xa6d55acded8c8adad3c6588005ba24b3cfb641c0981c99f62a81c0abecc2ce1, 0x26283be58e4b37a689ff24a2eda76627e26ba2040777e821fb871b5c8842e36, -0xbbff7261a82a260ce4cea609051de0b4d17c0087a0680010623b72858533632);
  (0x4fa3416b279472114889b0f496e8db3af9bdc27cd6873d2082b4e3aed59da4c, 0x48c2e7e8b83cdbf3e96fce91edfb6315f7d3f5b28f0b5ef4ef75251f78049ed5, 0xe4e5a42c83c8640dc374f14898e890e8305cf9cbd58ae46340784e52c0162579, -0xc5de90bb449c8c99083641ebdd5cde3fdb2d5866556dc6f09dab98c951011d7c, 0x18c62a7c81999c636aea0cac367b3dd291ee4e5c3d1e71202df1dfbe99e2f7, 0x1292fdb7f785fc292d0adddc2ce5361d1bbbdb7b6763aa91077e467cef52d1d);
  (0xe39fcb2e5148dbd0caa658c56888d3e2d153535c2e3729564d3d933d59bacc3e, 0xf921bbd374b7e3056270880fef206fb62fd3f5f6aeb92e878b7b7b66e4618fdc, 0x2e2d690eb3b1e1f3e802fb551f3ad0eebdaf76291695ff5bc464498ff1ca9a89, 0x28e7599a4b085725b7d4da8f1eb2b7ae1ecdca4424ec043de7a3d1601ca22298, 0xca64c61228f2aba0315a0c538399a3386b3012cb63c36234f4cec6af98af7a6d, -0x9cd22cc9df01927b267747af65799d9750f925ef84ca95687b9a8f42c9fe52b4);
  (0xa082d24709001870df542622529456fc83a5dccb05cc9fc6825c4c972284b41e, 0xa2f09ca16a2a25abb8429fe9103279b7037601fa78b74af7100e3748edfb7fb, 0xe54ea767cff578c6d51d5a74636eed5cb447b5aec331955efc60ee1a030937e4, -0x29d6ff62cb9c8c45fa2ed20788bd219c202bf9fad4ef82504719b7fb9bb811614, 0x64a3c9b3081de1201043bfdb835c083c075156e948602173de8cee9e19ace691, 0x95d1cac9a750be0e758ee3969b5ba59dac7ff07942d98f3afca13c523b7a90b1);
  (0x9fa957c6e42d4c69bcd6d0c8f88931b0be0112791b8264888c8e43d6fd565704, 0x16a00a39e192ce32e972b31933a88411499280e0ecfd10d9e1bc7a4d5505286, 0x831b1b81fafa3b43881553804aeb722a2bc350d6954f938159dea8547e8ea7fa, 0x43b81c332d9c19e7515e7c09f8da3d078989c6331af2a65a9345a6e623a9fed1, 0x6393cb0e12225256c790f503b8a01be2babff12f2a4a63c08debf3167768aca9, 0x5782dc3b59522d2bacd8dfe502f16d91c1404fc43deeb600b447e48e87e2576);
  (0xac560474138e372e33e84fafb987792702acc99298ee06a09de1d8cb3b993dc3, 0x77cf639407c3b2538596e2e29a8f9a697b7a65c471cdde6d500c61d423bb46de, 0xcb0e66afac73c6b896f877bdf00a6d8bd4fbc515f6beb7fd80eb07abc1fbfe22, 0xb07e880b75d6f6c1a473ee85339751cf593803efdbf38eedcc5ed52259fd2470, 0x7403b2e2f85812f154e4e9da173f5b0fc486eb479805182999baa718b5deffdf, -0x4fb3e6980849f3a0b938976c28c97287ee6fdb94a6064c2145cac10ebefe9024);
  (0xcbf24f9a0521f06d9342cd237873bcff25c3b97f53696a5fcbd02033ec866715, 0x87dcb265d6fd9a3f5c4fa8423d2e1b5bdbae9d9eb41bbb26f3d54834d7ccc5b3, 0x7347215ad5e399e0a456ea10d31c51ab4f1c377f2d7085c4b1f4d46c0e75d01a, -0xd5521056cfb6f930135f128de131e2da74c59335c126794f04b425026720b5, 0xa27a2f98dc15f34d7609983ea4e031d362b9d62b309ad6dbe518d8c3cef0ab02, -0xcc9bf12a54f5c23627fb8774daac0b24ba4afa5c82b0b4c37efa5a1a59f9675);
  (0x3788d1f97c1a10df7884d35984b1f69ef84fd9b56125af81e26c618e6e86f493, 0xeae6609bf381db7b5cdc40ecd20febce31060f519cfd07f1fe47364d1544f584, 0x6f8e114d06581ed5fe2c41044f1b36be2f431a346507c94fde1fdcaf4695cd84, -0xa64bbe3c3f4ba84b32aa9a079a943e53b1568083ac7ecb2840f7b5f156368cdf, 0xc0c1358f8a05eb729a4187244de9dba8f1629c7ac9a7ea9a26af1543ac05cbf, -0x157c02cd9886f6153824f3aaab32ccc2cf26a0879b8df036c082a2364e994d61);
  (0x9cdd21812effe27a6a0c21accf0b4802af1a4d9f8894552cc981c7a25708f34f, 0xf48f2fdd4f04951855a7a213085b5433a2c95fbda012f7d1b7267d14e1f7fc61, 0x5b121ad66e13fb790a91bd0618967e3329509c6a5c53681aed0e50115c62edb0, -0x47297efada67e3cfe0c4f45250024b057ba2ab8eada1b64585e36c7cd124f53d, 0x601e3fd84eb591209780a5dbb7f3b4d381be4cc11e08e5c18b382b41f24c8756, -0x5eb364a61bd82a0b0e1f271e8351eb42988e7926b7ef493857eddf09b1c4fa7);
  (0x18da16698fa5b27fe4f6e0f8b16d8ff22ef00d1dbcbe11c0c8aea2fd2570999e, 0x28b1cc00269c96d8d6ec37e9c59e60ceed78315329f3fed08bef5331d3fb1795, 0x14be523fbebfb6cb2c70c40ffdb06d4a8d5da846d81b4a0cda9da60588a9d528, -0x2ab353a2d00f3daab7136ed7112e950e1e40b8358b8f06930fcbe3d5ecc7e3d43, 0x2699dfdf8ae07e39df52f94812113f716565bb36a2912404ebbc7759693c4ed, 0x13ca6dbcdce5be32a82b742dbe204f0208a139c0d6f5f5d06fb5e5bd7d348b10);
  (0xfa5d6497cb57bae3b743558a212511a435f520c1dac0d6b6d0a93887309666d, 0x267b6f2f9a967066369a7c38068933648e01fef8f6efa039aa478a62b4636806, 0x7ebb41be48aa438e9181f0a7172046feecbbcac4c4160ac0ea3e04b9e3a3eb35, 0x4c59e388660ae04a0af0e4336c4f58b90d919cbb0279d7525d7661ba7941966, 0xf4da8a8ab6f807a098674a426f36588662b730dc0b5b524002b10ff573ab28, 0x229e541ec94f32d47fb3dc676428f3e7ff482414c32087f7a34462250df206);
  (0x7557a6926bcc9a2f7b232aec686a7f0c679162280e2438e7d85bdbc325e943d9, 0xc0582b2c42546ad7616d268bb58f8c12404bc3fb956d57f818a269afc24cc238, 0x9fc40e195ae4fa5da2cf9af0c1ae058325d53db29121e79d4cc2f098e53c0d61, 0x62d350b7f18d504b4208d812ca96044673c6dd2d386ff01b76c1ec98a1c173ee, 0x35c93c447a70818cad8df5671d60ac77f5883f0019b756a92bd1d8e4e7d0336d, -0x4686900b7e1a1b0669d6d06780dca95ff61eecc771069aa5efab171714dc4cf8);
  (0x5de4e65ae2fa575b1c7f7e9efd467f8e6829f7a01d2cbfa82f0948998d7f46b9, 0xd45070590d762d2b3ec53598ddb9c947a2dfe03e5fcc2aab72fa86d3d370bf86, 0x60c5c4af82ad2fb75e1938e50b720c876ffbcf431dec15fac2ddf9e453c0cb41, -0x1afcc14f22d6fc9de0dca65a0ab14bf874fc7223a4f2f59bac7c7a5f62e45ba0, 0x22701c092a15a182033b7f69ca76e7858f783909827a6569493aebe5c7c7720d, -0x7530c3706d3723edc9de0546b9bc4b5f4ae750719faa22560eac299a9cbba00);
  (0x43465544d77be1facd82d5535b8aaff4ebb02817972072b01962b57fe8298388, 0x3464c29a2c1d28bb495caa51122ad9e83185f1a474eaa7f8df980e8118c0064f, 0x763d248bbccbc26eb9234e873c9d315884b7cfbc034562899519642503ec3067, -0x1dd63487ae6cd8d514d6c64ca9fe896029ee24679064b666da3f4c4ed913dc05c, 0x11ade3f4c6d779a44ffcca728e59680643a979d9c54342ec9634023b282de4a5, 0x2a069e2eb912c459882bbf4c7c31a17c952303a6557e0e994a80c2e4c9d65a90);
  (0x7627ef78b450f8aed2245413304066c10f0370ad211f3143b29d4d64bf462edf, 0x496ad7ea04c3fd7683241695e48fde4402d863214221c0fcc409c0aef7c9edd8, 0xc839673bee2647610841c7f54a59b0f3bf905d5d4677505218aadf233e15246d, 0x1ea21447d72ae6c0f497791947841e117188b2d54e06e6ee0ec295016b3fa271, 0x3688d6fe1d042f85aa3f0c2a5bb853e74ad35f127aaa95d79692eeb28546b374, -0x9b4156aa4955d7911490d188afd63b18ce64975bcc5239a67e54d18f4611d6b);
  (0x1ed6bf07e5ec017b3993b75b1065325cb435ddbadeae4ba788489a6c22a827f5, 0x58c91a4fabc2906cabb876292ca216407897ded290b4c90f8bb3f7ea7955f6aa, 0x23748be92be4eedd7a580099fc55cda709d6b3a45ccfa4d08882787325d99322, -0xeecf4344901d62539cf2c169686a8db69451f574225e8edef801087ba123e9e, 0x3b708e9c9a4803fe720ead0a5fbaa965c30d6f1a3d369e34958be2a5947c75f, -0x1d9f00b377692c81b3bcfcb7a8d6511f480d276a6cb703d4c4bfb741fe4cb49);
  (0xe401290c87c51fbf4595e46810bb7e3caa9263a8467857678330eb74639d8a11, 0xa1b32cd4124cb1ae8e1f6fbd93c9d57960210f3a57f9d5801744d93f24a9e38c, 0xd107cd05cd0c69311f71cfb715117d5e281ca173c7323ab00da9c5b9c75e5faf, 0x1ab341425227cee49cda68f39e1904a00e4b7b35d2ac69d08bc3bced87d5239f, 0xcb12111faa8534311a1947834b89eacc2e155335fdae60ad8159af270c958705, -0x40f0cd190c7313b8a15c16596479f8efbce1ddc5ba48b172cd0efdeb9b9b2a13);
  (0x51389b751455bf711d4e4e9df761b7c1b6b525d820381a0e5bc7675292409f38, 0x441a0b06bc27d5f04c88417cc69f2c78d4e840b510cc6a3fc3e5f2d3c6810580, 0x78d35eb7093546132bdc001660260907f0f1ea5d2dccfb31e894d538fd030012, -0xadc532596367b0b128278bbafc5d333182e261b1d077f20aabeaec8201e29720, 0x19c4dee4787e24d4c3d9d986554ae4fc2e4db5450489995678a8286b78eabda8, 0x1db22607e30f9812d3b362ea74af7a7dd5cd348d21b4df00f5e439e41676c01f);
  (0x995c971cbff93782948afa4c5b05c90230b9c17afd3fd5dda102cfee0c161e5a, 0xe1d527f1224163a9a94cb2cd6ef9258de3b617e7f3c76f870158565fece19763, 0xdd6e599b7cc5ad3887910cc94a338e988ed0f2b3611ab4e99e21554fb8d9c9d0, 0x1e59ac7c19d7911ee07fd0befff92269aa7b73f506efb6c6957d3bdf0533ef2f, 0x5bdfce1d5354cd2c895ee6517f10e0ca0c3590885091c0ef6fbec8fbb5b8bb5b, -0x5e7de0a1900f8a849e5dccac4d1c35c8bc030dd0a053469938722afaa02891b0);
  (0x8492b1ddae23761e7fc7e0a9575f5d32ab6175d7d309eea7546a5fbe055d1707, 0xf7fe58ccde4f562d07e5a15ea797d33e601a80684e0c8fa50afc4511177c9b70, 0x55d15b85a8e007e9b55297697797256b410b1b00b80f11b168f7f531f4af2796, -0x17051931b6f6aa94789341096b006ecfcfe2ef87d7bfcd8de9666c20964997dbb, 0x44a79b7bf8037d0557943680df90d791b61db9f7c19b992ec8c268d4c87dee3b, -0xb79f014d5b29cc7b0aeedebf1453257cc35e75246b8542ec45414a649089781);
  (0xc2441f413f5e5447dcfea733651984f0f372af1e0088edaaaae6f0165750a417, 0xe7c6d54761241e7881f2a21e2ad47ebfa070910a3a87a53671b71f2a430c193a, 0x6131e05d51de08c8aeb775120b998f4bfa20d5d852c2766b00c9dc88b5f7fbb5, -0x6210e3ecc123587d833e813ed2b07eb48eae29bd6164fa690ee71ef2847ea24f, 0x936b517f82857fd3c71f20f3fda29c2398baef016aabfba6f255ee04cdd77681, 0xc4e6264f35931d5868c7167901295304cc8b1028dee2dd508e62c5e70a364cf);
  (0xf032ffa2ab704cbe5af40beb8a79438066455ae25c8ecc36d2ffc3dcb710f20b, 0x9d8ea39b33733f1f98ca0e9b6893f0d85c4c9f2328b17a9cec11bcf5a43fbe37, 0x4ed64a67b01a06d07a0ef40fb23441d1aa671450e259678baa150094d36866e5, -0x1bf250fb8c7ffd92e6dbde93f1f798bf0ceb96579d0f51db3badb9d8d3259585e, 0xe15fa979dc4300aa0ab8af952356faec35004f3cb68a11ee42dbfe569a407a4e, 0x45a377a84134c66aaf061b2176848066fa0bd973be3740198ddb352949d7e3c7);
  (0x7bf5c7326161d990c4d0982e4abafe9603aa6c3e0b840fa29cc766a8dbf33d16, 0x7d73462121e38f58b4081d58dfd3926763de5a7096f455723e68422a47722c72, 0xed4c75674a58cd2a7911c463008721417ebb503124d3020b9f188f653a8e867f, -0x12c8c98803d9bdc71866df6a41521b6912af1c4cd06c6de4e10cb7516735e610, 0x3c0619614b01c9abdbbc844f40401dc1b378514abc3ace00e1b58ce37a553b55, 0xf8bf915b37ba188ef2e50ae6714b0fb6ac8583b81445cffeedff038d7b27e0a);
  (0xda6d80bfe1d53efcf593c492863794e8a9611726613ba81c6f3a8d3b6af65fe1, 0x47781abcde73e3d96f5c9f3adfb22ddb0a906ad4ed2776bcb7253ad6473029f3, 0x6557a321eaabf6d69b7aa69b8f38ec956608f9d8eec95f89def15ca1b6f69426, 0xdc83e692c4865620e01e773fc0dbf696131205d85aeee8847740e8542013f672, 0xba5eae1db0c5f08678124803b08cb6247cbeea7ccd814d128597c675bafe3c6a, 0x2e0efa0ae6d40882f0f5a694457a62df1602616ffa84d77cb0a5a00c6a645f7a);
  (0x7c2bbc37333a7b51bfb0ca83e054c8b48fd62e25cdf357340b6dfbb08239f3d8, 0xccdf70af575cc0f1b3b8a996b5f126baee6794560cc92df3221b8a001e90121a, 0x82b1cac10e92bc92e146ac2011429b239b282cc38c53f0240c59012a9dcc0306, 0x16f0a8aedec2c8f6110b13115eae5060b20ea7e3ddb3aaa7a6855e9e96e509ef, 0x3c3a65ce3e8cfc4191ab12be7fdb2a2c9ee8112bae39f78a7dc2c6e47d63fc4d, -0x40b4d811894eb1e3e77d1735d31d5dde407f8a86c93b05799909825b20006414);
  (0x325042eb96dbfa5e09dc7acfd8a446b372eab8c969c1872289b74e1a1d10163d, 0xb2d30c4ed178d8917b5f9b4df0cd04eff9731c2b055b401c511c1294aa1e83e4, 0x53af15a11fadf9dfca43cbdada547ac1dbbd4a9ca9df447989cb032d2e2eecc8, -0x1b87f3530879696272a75c89f7a9b8a7ae7a85916c4a0555599ebd7049714b310, 0x9e3734debaa89e0f47cf5ee41f3448a57514981ca26b42300e8389d93bf2531, 0x51e964962eb069f2bcc3077f82d9f23605f9524b683fd9d57e3db022694c310);
  (0x774d7ea97ff15600259fbcba91ae5bd6273f794d5676b1e87cde1f9adfef95ca, 0x30274b2dfcd970c554bffcae72e7df02c7aa9849b8805b28dae1243892ddbe4, 0x54fbdc4e93befbff93f9db5f9df613142c24c612a432b9cfcf27c3e448f2be18, -0x1bfd5a0304ff724340df42ac7cc8674731613754749b417520c32ad2161f01e3, 0x3799233705949f4d9c4e2b9f14d9ff4a64b9eaa20cc46a00a2d0d5924ce4e276, 0x51ef2f342a6f5c81b1850fd1c25876692da62beddb4765388feb87d9ec667d20);
  (0x8139ffc75f7e1b850560e06eeedb06e32a29a513ee8041ce80dc3623b578b8b3, 0x88f322725db05f342ba445cf54eee75c760b61d44338445c938f26bb83d23a9, 0x82d2e44d2a6c85f0ca5a945541d461612b6b95ba618f3066d111beaa8276f850, 0x55b129bac0093f8bbabcfb2928d6fe37d71b7d2ed1a7aafe9cfa6c274fc73460, 0x413b80ead49469672528a764edbd8cfa4d606f4ece44039b0ff8db73c15c4bb8, -0x2cd2d5949606b360469ab063a7f4d67f71a61e5abe8fe80b8b5587fae273c67);
  (0xd3931ed8a0d6c2f6e87e0270cfbb31d219b96989756a3cc4f4481a05d9e982d5, 0x29ed954edc35a7bf5192c69198406ef7effc5e3d8c4b852822e96c0c65de673b, 0xb5a0f29f6fb1a45e79eaa0b09a5c1cc2b5a13885a447d33a891e334aaeb71d87, 0x5b148b5f50f8ba7d3ab6560467355cc502e589a1a8ebe4bb21fc8ad63883d3d2, 0xaedbd96589a239090ff6bfc1cd19106690c09f59717d87d95a0c57f9e01861ef, -0x1b93f8f1f753b68fff27d36cfbf9c9751daac28d300c31ca7deaba55bf1edd11);
  (0xfc34e3dad7dcde0cd5d913f508385a729e2298ff4c7da0265f16120f365ab413, 0x109ecc84f7e898acefb114adc3cf3e0c530e269d1d6f7c1b8e176024f5cd14f9, 0xb70031303adbb244be8b7680a441fd028b151837a5d71356fb59a5f798d66473, 0x15146076b427763826a28b05ef4302797bbe8511e6b19ad33a4f2896f39c3447f, 0xf8782b8434b05cc98633ec1da8b14306b0938f8c23b85537671c56f1c0857d7a, 0x18eec82e04373c239943998b0d38351b5555dd7eb11cada64f1f4bc49d4299ec);
  (0x73f49944981a5d14474cf415bdcbc07da92504d44fb63f989d0db5983275603d, 0xdc4f252d1c9202fab36d4b92c51add3db29a7865887ec6a0cf79a364722122fb, 0x1c013ae751930119431fb005f19ca7f3d1996eb446d467707ce1a6268f514cad, 0x2e4422f3fefb0071300527d16c7040299ce2bb00dfe2655f8b5cedc1c6e5d5ed, 0x3485ab68272cb212525a0f3bcd3c1ea6ff9ab7bbe67f664c8750050ca48f2e2f, -0x5c42d5db0194c5694824489e62b08e0c694c10dfaafd1e0b972a69c4c316671a);
  (0x15df4692ba8271c97ac7d2da903d5daab1ad12772b29605fe1aa8fbea698b296, 0x690789f773de179d4f7e050bac9fec2b74de843aa2fd2fccdfc26dce3ca1a86, 0x65542ef88710305ef74c449273068031c1b143c02b6c26a17bf5d3a8044874fd, -0x233ff53d9283bbbd95befd7e453864dc38023dd95022281c35887446a38e2b4cf, 0x1de645019aee805e60e797f114bf2c37884d751b4b8bf1e33f49f61621dcd68, 0x1243102c93998239fa168e29f3d48d6bc23135f3467eebf8cf8ad68f3e91afe4);
  (0x835c9e9ded9a37ac95de1ca70ac736eb8539980fdfc253204fb998a281edfa85, 0x3e2937d8c1645a79360ed7e65383e5ed7c6f76fd78fa6a4dcd34e4ce765b1eae, 0xb19bf9344208d6e7615e8a947fca97c65aabfe672ecd50c935426e4f785e7463, 0x3992c4b5dc45894b9e6b6934bb8ca428e67ec3bedf3498cfc58a9dbb4317f79e, 0x4367ebd804f5ee8a4dd543a22022249ce6dd7c692cd86869ce0269484de3c37f, -0x1c8747319bd4dea6c1199e0db2e5f2fa80687cbb54b926b1e8f8e1f1f1eef028);
  (0x15767a1961b74eae77b1338f5a1b177dfce5d3894c378edc219b525428236f92, 0x2e5f38ad09deeb4aad8c7884df7915df9a2eeba717ced1dc4380aba6e187cca2, 0x8ce5ea843086af78181afdbfcd013492bacf0f17b63406be8a17f2f5bc27b364, -0xf7ffcf79746de34c76ccf02727a5a31b0b015143ee95c92d2f6a39d849547e0, 0x1cca6dcf3aa5b8c1a917edb1f0266f70319eaf81c8053fabbe037108a1f2dc6, 0x152e09208902249dadffb1dc0f1b4cef1c0e39aa33e8e928f4dd690370551d1);
  (0x8d675b435bb71e1f00c9880364c8899fd15de9ad3a9c7c416e2b9932aa242587, 0x568fe0c8d2488aadc285758a94ca6cb90af5abdfddc1732498d5460f4911a011, 0xe1d75967a92fba95102f8b28aa5de5a0ab16e9a94514be44997f5c58c0ef225e, 0x27fc86bed6bf2a805ed20ea8b556b752d6eced7d4ac213c0ad70d9f76fc557c1, 0x4e1b0442c3c47975b5f0232efe5d4b29cc7da6ca658111db4f6f00b4f937e4d8, -0x1633067ecf73ba105088927e1e88fce7b90f10ea7f3df44fda447337366c728b);
  (0x5428ac55904b502a2f8206f05d901413ebb99fda944b0af2cfcf0cf989d6c64c, 0x898e61d868ca8cb97473bd71f0449d570b90fc1a5ae7057625a8870ef20edf7a, 0x855920c961806fb8fd1ca586993ae2a44312b272d143ff5a95a2686dd50763d5, 0x3cae225cd61cda7f0c4f60265a4e104c68b0efae6f4960e0f4761c6611c5942d, 0x1baab78e75719aa3136ce961b573e62e96a67fae9bb5794549612a8d7ca715f4, -0x10c39c7151c7a968fe876b6710e1abae4c22374fa73b2e7d377e71e1e6ba089f);
  (0xd342b2c7082b2f57683ba42632bd18f816aeaf995844a9188ecb467702a4dc3b, 0x4a9d3103026dca0bf02c096aa8f762ec779b1e4ad9b4b4ddded6068c81b114bb, 0x5697e091afff2f029a45a5b607e5d0d6a2dea10bac194e59195c99f92b2c1023, -0xf8203b79e4ccbdbcedddd4a4e5e56eb198fea1adb520d9c9de656a74c666806, 0xae570414c2f0c868401ff06cfef62705fcd22b5737f7360d0b1059de348f463e, 0x33f131631dd6571bead5b27de36e59ae30853bbae98010321ecc7ea78c2ce9cd);
  (0xb70824106af20db167cfb69098e107d7543176c74d0746c72c1bb66270f8cb38, 0xfa97fa46273f3fe5774b8a11841693f83141f6a583f372857921ece7caa39d20, 0x555dc5527b59a27ac6ae4ac67e323315d60cd8ea8b2b1cac5052b829f6f401ea, 0x3a94e26377c897efa9c835c54789d097bcd61d114a48398c7cefbac0376c7945, 0x82dca3d1bf015dd61c4a679257068bba1c4e70178615bbb75fbce5118d7c212a, -0x7dd1de7fd6e922fbaebf7be72fa68aa06c5354f0e0af23ac77afec7f4d9da0e5);
  (0xed0fb74197ee35186e58ef90772f200343ca15d70a84ae09b26d48a17a353054, 0x8d00b666fdc894795b03a5af0c43d1e8b2beb3fe35d834a74b828b99a24c0400, 0x50b2461b3dceaf3bb0bee2281223d831e5603afec884cd61ab89966c96e1e6e9, -0x7a13b000adbc077552cd08be38c5688e43f2edde53c2b4697e553e92492ce55d, 0xdb861a46702db43e86385e7255e2a28e59365a2dce2f97e59ed080b7ef8a304a, 0x657bc425c96d3f58fe9632f8fe04eaeb3d199d1a797af1db0749bf0f31844d6d);
  (0x5db271500e7bbb992bc014a242d01689f31fd5362cfdd4b2ed9385d1d077b6f7, 0xcdc3e5737ff0a2cd800d7a0041970b65db8c8c4eae157766ad419ecff91e527e, 0x982c2d01aaf3342bb72272ce5ebe8e070964b250cd86759d44f48a213784bae4, -0xadeb5480bd552beec90b9a0c64ef2b86841f2141d0ab02f37aaa6cf87c79c3e2, 0x224b22b5f001d030748ea2c80fe66c8ab8761e9c9d9e16ed1f4cea03527cf013, -0x17b40c78aa68403a80054db342d2ed4c39c59107aad5ed3a29bb8a2b9c58ea9f);
  (0xde65d0cb6d414e1514fe8f24630d07eaee265492f1bd8b1ad8fc9f2e729fe9fb, 0xfa61c05a8bcc1234ad1db72664573ea73fe689b541af5ddec444b9a9688691df, 0x89c9b5cb654aa0222c23a291b936b16dd359352efffabc1eec839aacbc9b9e1d, -0x4b94d6df04118557a8a9add28e50310b6d2753f9e5df1d64aa9becef465098a3, 0xc134be9f3c4cac24c020d5d3b53930602d01b9ddab4960ea6b808e4bd2114e96, -0x26c2a27f6f82deebd852863feef9dbb1cfa6aa2aaf59e232e83a05da7739e31c);
  (0xb42f4fecc55717ffcd5bbb185cb3917e4d678addfcf3db0afc052dbfad13a07e, 0x19d9b30f00fc24154385fc137c9b906e4eeae4c09599273a8d8a4eb0cf593901, 0x9b547de01e1c304ed607e034ae85eb34f68677c673a0bf32935a5eb94be8857, -0x21cb29d4c64e854f042c3fdb05b29a44398aff8894905aacf27a908563c6c2777, 0x7ed291236766ec82ba39afbb381545794f9845e4c4157fc652df2ab8d42a5b05, 0x9e09286d351456992b80e6aad23e20cb4572758e874e4f1f6b6320532360d2d0);
  (0xaf8fba9ee56eeb6a6a1c731e0e2ad8bc281baeba29049f6d9892c42367da2cae, 0x1414c78c0e7e9dc7139d039c80d20e214e8d9463a4ab59a678bb7e351810027d, 0xc180a3c91c6db0555319910380029639f6dbfc4ad4d9f7baf6aaca4a6356b78e, 0x3fb812ead17e3956f9f7dce63c4e4c531202866e5c86a83e604eb416aede677e, 0x7865d1d7433d3fcbae964bf38f1ecf52b3eff070821cdf77a71b330df28db520, 0x3f4da32b9bb6885d4c819985d88386a34a40eac34cc8248fa23f090ea3e2613);
  (0xf68f3de2c48369af974e1b0813879ec52567bd7c6c4edf191d14cf2fac59a687, 0xa596980aee90dee3cdf75ca3b3466184c60a99fb81d9d0787e4082d33d8661b6, 0x9ab355bd93847d057c7e6ffda11324677c16fff9520475b33b8a4291bd571fa9, 0x170020372987ff5809abc78e5dfb7065c317a22da5790713cd7f7046c49d72969, 0xed779b1603f9f473b832eaa24c5e001adf9405f67cea2bf528a0e7bc4138a341, -0x8c24290a352b154b047c68824f02c1b1e21b5847c76afbb363ebb7e150048cc6);
  (0xeecb84399bef2fb81d6b43427a537d881f6adc7104d4b44df210bb3cb23e016, 0xfcea0cd762ba647b0598f880d7edab634d42ffd4ff7af5e066be8b492bc46d87, 0x93daabc5cd49d2d6ffd383e7360b7c2cfe4d5daa78aaa3ba154c99a58511483e, -0x2bad5cb330fe5c3d1caf267442c77beec01c0f771fe5c1e77608e90c8ee9db6, 0xdebf0ba615997fd57d66bac3144db085a48403b6b4df37ac7d0afcf4edd3c1, -0x517502de611e4373c06e3164cb7104c29d58d033c65dc70570de6e55af8879d);
  (0x350f2c47db9c535d0bc509ddbbe2f9c15d6a029baf905a911da82abf72ad24f0, 0xd496c97ed81539130275b364a73a7ab286ecde049535fd82857fce79f26f80cc, 0xeb74cd47ef79f052f87e40022392c821c51a6c20adca00e0dc18896590a7931a, -0x2b04ecbe45a1a703102c6713da530c5759faed2ad0f38154aa00b4c338c0e9b93, 0xaff493bf9033e7f958a06ec2126a01058de3a827b4b4fab887251851efb75a6, 0x85ba0cbe82711885a82f92ea67927818be379cec4244bb9257ab4ca33dbe9f8);
  (0x7b86882e472fc72eff23ae1fdb4c0f8494ef9425915d3fd25612d9c439e82a4c, 0xb3a49e24eb69c315241ceb4af586e428d3a650c4812fd6acbd042acd33a8f652, 0xee721e514e85bfef8952c0cea407e4bc0417624b6690ae4efee010ca9b5c03f8, -0x2d45c3b310994c3c2336cdbbdd788e2fc2271164025ab821bfcfda650b5c376d, 0x3b9a8d8f514ba36c1af8700d4faaa9f754a199a1de18308d593ddbd391fb22cc, 0xfe5ab1d817d23728c679f6348f15f4e760afbf4277538c12f7c6c4da6cff9a6);
  (0x192d859ec061a2b0bb9a9ae1498811a5d33f9a1d88bee4195a8d70d8a9aabe7b, 0xccee5d4a7b5ad6e631220ee0c91a22652055c00025e99071dd3e4aa3e3266508, 0x9e04c7b638fd5a43d449c8434ce24e9c6087305942d7c612fe3c260dffb93a75, -0x14b47c6130df4a9349a2359bfd6b8d36198cbb9c3810b915c8ca0e407ad6fcb7c, 0x279ec3141210a7132e934f6760fecb4381b7e7b3d20377b2531b131155ec52d, -0x27cb2d4437c49a6b57c4d9372b8d47aac210f023ba95d98739bd319029a5d1f);
  (0xa31db72491f3965b5685d1346590357760d49ab36ddc4209e50e4a7ea3768441, 0xec92a28f2a1d9fe6e725788a3ca461d50a6c3e0c711cd1efdf6edd8a3d6420ce, 0x6b5c2489be03c15b24c9d8340ddf1eeb7720071a30b6d755cea9b2777f8317ea, -0x36e7376f5a075dd42eaa5825bb347bdc7cc2db84eec3e40a52e963bcee4c9dec, 0x67eedaab932a908c018eba3807a969b7597e0cbbdbc781dddb011fba8b87eec5, -0x1429445986b5cf613be75ee6ff6bae269afaeeaf4d72b1347930cea1e5381965);
  (0x8f9b7a49dc30afc6f7deab5c51840467af74b0499d87989a8defe6d077cb69d7, 0x50e069ff43a517a120f204f140d1381a1b6e1c1e48394a4fd257a86fbfddfd76, 0xc93bd139429402a7a7bfa79a1dc3f5022be3407b7b74fd5e115cde6694aaa1e6, -0x21768b6297160dee9d751bc84f78ffef94f725f25415da59b951b8a6ff78d8240, 0x508f110bd3d98282dc8c862e9a8336af9ce1873f2de753db7ab8786e8aee24bf, 0x57571ce07b8f58e5c19325f9bb690e618c30782accc49244594dcaaf33b02f18);
  (0xbe1af6d60b76e76daaf3e304f5c5d58690a7fedb6e9c3bb5fbbac15db768592c, 0xf1ac50c14557ecc749f83691d658c0e1d59b17742f2af6a5976fabcaacdd3154, 0xcfea46d88db9f3d255d039577c0c8d4ed370d262f6b97cd8dd13f921fabcbf0a, 0x1c229f3172bcc0a2854a2844d26f4b3374d3b59b3f90fcf9cea1fa11336811e7, 0x8d2c093cca7ee4ad7c1ddd8998e2519dcdd0abc85d440c9e09291eef6e079b20, -0x77684503ce5bac6ecf8dfbe33d71582a7991a7df5ead0017b06ff93f4ce49b18);
  (0x5849bee8787f6c925fc3187ffa6e871c953dd922d3dec445650b42ea5a947c9d, 0x331229544d0a6f686c43deb813472645aa6750c10726c227bb39ff6570532a41, 0x44f7dc08a53802b03220ad5d4cd45ca9cf4fbdf6ad84730d489d13d7995f4d80, -0x21d08d1aedec521daa108fac6ce6f094503caf8a27244b97ba24281d76893016c, 0x1e72c87e41ca3948522682c54030eea71944b963972663c7c2dd0a94d3aab360, 0x41bbe5a6321b2e068cd5a98bd8a274cc33ce501dd2d8fe91b5d7e2adf579e9dd);
  (0xb1b31c9f152de33a8ae0648d3cbb568c3b2afcf487a79eae8bd09ea544e8212b, 0x762ad875bb2a916569e560857217ec3431c74599a496a38a39bd5521c61e8862, 0x6b962eb6782f2d229ee49e4f26974a363552a9cd9f61d3b87b6a0dcf49bd99ed, 0x2efd0f3dd4d1ffda800c61fcf69cd1906a94317dea005bd88ca001bc343406f8, 0x7b592ae504f441e0125e2172cb484b73ab447b7b11033e1c91b0435f1e0650f0, -0x2e9302d8f68db3095b20399109e5aca3be96328697ab8a2e24508c28e31f81f8);
  (0x5a3d1bd3589f429524d1a30a0c266eb12bd52754aa0ecbcd0d5a1ece753c4b61, 0x4af6b0d2102e7616b10e761f364f8bf8f69092941eab6b8a3ee6c22b3436fc8e, 0x4d90e83495758382e5e433c1fbc56c23da9710d799acee7c269c0dbc75708dd1, -0x57c99e5af13b90fac15d91279f812096185b116a3b595019722d3f8740d2be72, 0x1fcf0626e00e79e366380b03fd30cba5069a9f89f31b72c1147eef51c098d2af, 0xf3aa60f273c1cdc32a13ff9a06f45e16272f627dc6dfd459a1066550ca25416);
  (0x64d390e274873a1098fe5c7cda904d3445db48074880e4f9ab1a754261e5c519, 0xf13e94cb35a53dbe0e805b515edc7df860c5fff413e2f91ed33ffa3fd73bd90c, 0x18276c97ead091b16d1a8d4f72c8237ad297ffbf78a927111dfe0e3c84c9c912, 0x11403fddf54f9fdf47848696410d61900523680d87d310c6087ed61859df352a, 0x27b5f809125547b0c402f1079f0c2f01f9bca7e6b05f355f4bda723ceb028bf1, -0x417d8069c06016d7017e15a57e11eb992612362e74db432d9cbdcdeac7f2a7f1);
  (0xfa0b3f98fc92de89953cecc5f1097121211399b8c975ab9ef322e134757ea6ac, 0x2feaa063b6e7746ca1fc263ccfe8237fe5a05fd444bc828890d020b65540ccbc, 0x88845d4b07a99430d1b48f1d16a4d9034c9de229e2c6f3e64b856803150af03c, -0x27ad58adcba257ba6f22b7cb84b11c257f772af286aa5eba7b26d39e933dca180, 0xf439f8b554413701086f46e59cdcd3e105e0ffa1e6e09b83ca999cc58d33d9bc, 0xbcd47b4fc3f3eceb180fdd02186b8a2ce47d99c3c354acdd3ff7b3cd12cd7df2);
  (0xaa02560c14936c6ccee08d2e0828ab79a2f3d8f69acef69e2ce5583f6f02428f, 0xe68e9ea41018fe67c58f36e9ea2ef75ca0d50066e2dc8e0de33c39267b288721, 0x4715ae718cfa9f22f6deff7e94c6a0fe2eb2996ff98be90c898b998feb07dfb7, 0x2f0cbececec9b67a0159cf5d78569f7633761b0466ed381cc657e2ef4432dfb3, 0x70e71a4d80703cb330c81a0c4eaaf6eae0b9393f1520babbecb75425fdd034de, -0x794a91826d831e6182386fc1f2cc6cde34e942c80d251ff6085c36ded4b4e2de);
  (0x534c6f58c11acaa4e8a7ec71944321c81f99630d4b715d32144a0614688989ea, 0x30246718ccadfe67b5f9c8a8934bb1a53358948096ae37079e01af9863c64a24, 0x290083f100ac2d1c13527e213027bbf835781edaf87ea1ee053ac8aa9bab76d4, -0x240ab3bb63b76e556aa7a6109dec70ad1992083963d9feb3541dec32a0bf30977, 0x1b1aa705da581d89d096c2820cc5ba6f4f8ebc417d1b41d81063b4ae928473fe, 0x3b5ae6e1f06559ed8a7a004605b9174005139097b6d9d87f544cd6ef5479d8f7);
  (0xa192e3016c44cd1b699f7be19b8378e3b1520bea31c3a05b96e1cde5d5763f3c, 0xdc85573016b245636716c4858dd1030cacd4554072d46d60e9965b0b27cb248b, 0x4c091eef11b889c168e47834363cd15b7bb426515fff1d5c322970f2ea538100, 0x2c92a7cbd6681572a7f7bffbd329001ee20916a4437c73b0e97c92171a7baf8d, 0x65fa15cf81198e7a78316acf77e568ec34723a178d496cf0431d5252f5897ffb, -0x6ccbdf227d01b6f389e847de6ffd1cbd65f78c80263d96bd8d33db81108fcaf8);
  (0x80ddb6d4d06afafbd67658a236dee2fcc7cb23d92fed1e2164823f3ba66b05b4, 0x4b3b0d62aff0f8f89163c8d3ca0e47e8e49469ac9843fc92f2a84658106f8f8d, 0x1935a233b422212a22c3bdd4649b57b671b0b9131189a3bc7fac02787d237c8f, -0x1ed5386a138a0746d64ac7183dd7ecbfd4adf34419d30d2720d40ae75a1102cab, 0x40de76d9fe6e1cf325026b90c419d32732eac916b61c445bce7589642ebe55ad, 0x4922f9cc01f89365d3a506dca99cc435b4259592dd0eca32ece9fe64adb8bfc9);
  (0xd6806e2c832763c97f52eac3b2d405ede5bb876e8910d643e75960ebccca8603, 0x8d39eb792be78160b9fa4e685a6c9188e7a3c39e8036d657b3c85d5335beb9d, 0x60a5f20cb0354da190fbcfcc234815c60823940d74127743c2567fbd27fa28fa, 0x247a010638ac44751bfcc68be24e61031445c3e23a6a1c387543b3dd9fa9039b, 0xb3baf8a0c7334aabdcdac048bf874d7f5e1befacf771d7a157884108122b83f9, 0x37a3c6ce5d508238352f81bb390b6a113fe1c9b2dacda3ac47f961f46e243d87);
  (0xd5314ea93d4b6c8230a7013fa9f763f13bdd536bb3a30c81ea82fbb9e4ab3717, 0x7c484b3b2646d4aaa34cb652507fc8bdc63bd2f3e17ecd772a0955069e0310a9, 0x2926a71665d7a3122a7f55c2117e323bdaac15c3381f94886ce14ecc5525ef47, 0xa00fa5253468c177308777cbdc8423a92eefb7e45c3a1c84d71657d0c286a8d1, 0xb18b1664d4f48aac212e297b39ed625b29558b601e5afd7b03b1872fab8f22ae, -0x602650585f2a7d2b208a72043c7b784f0cae8aaad46ffd1d6dc9c0d0be3b2615);
  (0xfc9933032f1898a286c71804ff66b7022f70c0a3fe0985da3807a10cb7755d84, 0x50740c1079519474a540a412141a199e4146d8a28c2a83a11d1eaea4c8e1af97, 0x2bf2c9b96b45a09d9bf19b9274fbe20d67d1df71bb260f6eec2e7c2681b926b9, -0x571e69a46075f897d712cd469610a9dcf8a748afe434961e3ec1252af6ae7c4, 0xf93df81c48b0fcb45bab712fafffd656d23d7bce9be4fdcb2acc1ad253fee9aa, 0x2b3f28c396e5355e03a8f611b751bd63f35c32379f213750057c6e6171116748);
  (0xc09b634e1700a71b8ecbb3d5c51661dfbc7868bb22a523cbfd0bb87e167ba49c, 0x58e6881b8988d6658e06c29e5714370847e1b600cb7a1b38792e66e04d4a470b, 0x2dca10a4c4e83348ae9e115cf0bec586066a2408347dcfcd0c4d9359dd26a50d, -0x9b8abc0b2a8eaa1c3ac558074184aa81ffec07b5ec4dc725295b3b809f4edfb, 0x90e97346899653103946bbb05e74ba33ddc94d809a797a6ef81466784b27bc17, -0x65afda04078a43680f1457a3c59e398de41d52a6e66c97697cdb544d33d32f6);
  (0xb02b01a8b1e0efd1f93a9056d6a9fd6d0de6e6f6ee9e6f2eb8333a20bcc46c6, 0x5e3b12a1291787d26d062a21b5c392659e7df0cf4425c73a281cf4a3c7c0fe7c, 0x9e0e6b5accc0986a79efd39c8da994e2482f90eabcfa2cfce3eda4e58f2fecbf, 0x148d044c4f197d6c1c806ad4e3c77105339a75c7b2abe833ad01349e5002f70, 0x793b29818343cbdefbed78f26114d6e1ad79b122a85c92ff5c806339e76937, -0x3ab0477f9dd7700cfb477dbc303f5652ff757427a238ba243cc42d44cb7ab2);
  (0x730d52cf0837f12fb1bbf85c43aabc0756481206b16d324a127bc77999894a0, 0x1951bcf5150d5e8173b7951ed3ed80251f5015b0ca8d4ea72db079a21c88fbdc, 0xa787560b3551845ca4bc285e29a2e12c7bc4531d27bca84887c31591926ed311, -0x5f2d376d1f9d1e05c12a747df76550acf1fd2d9d77414b96ce3b009ec6185170, 0x33b4f9178532611179c512847815f8a5e4718e16005414076ef27aa52a342c, 0x1ef867a01f11535e377c94b9b56f0f128e532107abe9ff18f5093d4d2492830);
  (0x1308e69bfca2762e44066e14a7bf7b1481b0a197a2c72a66281359d7ae5dee2d, 0xf52a7b739129784b052e5cf4a6b55aa3d7daf318f13cadaeebdee30ecfacb4d2, 0x3331c11dca79f582860fc0241c369294e5deb9b61a055e6fff72eb9bb13d6e29, 0x6f2b3897cefb8477fcf6f7af07281212bf7883eeb51543d08f22cd23ee3df14, 0x16a528a60fc90b21363b2c4bed0c29a5f9ff1e1c6e4cb5ccb043c662eb7ab55, -0x1058baf4077fd10bd9a8e597d43d79d79fcbb346e5a8aeb1cf9f263bb99d6278);
  (0xf1e53029b2ef2c86302097d6a3d8644b25f8e314197b0f99421b06d61ce773dc, 0xba40ac254e312ab17ccbd703df28022018f11b260f67869a0d33bc690dcf6816, 0xffd86d85880de23fa3a8425637bcab7be04136b6600deaf3ca1f675417a8b5ee, -0x25f9fae26e7760b619b1efbf9c55e67ac2b5278cb20a3857c5f63a1bdc8179f54, 0xe49151ddb6901b9ecd0f86982f19450f4d4d9b01ec7992f2b963f572031b47d6, 0x37aada648d8c25ee41c570aba0630f8707ad5919cc1f1e2a21a83c50a8c73a39);
  (0x967083758698b1905da8f3f12786843beca5257778eac35ffa1397476a733831, 0x7efbad72760c373b117fb84deba9b02490687486edad40a912182ebb4af79fde, 0x261ac6771e80d403e3a78e05a8ec7a104d81a8e4d880b3b1b9921fa2a794e832, -0x27a8eedf538461071da9b807e03acb853056fdecb06c7018b69e04a39ea3afc1, 0x58680b81041233652024347b0c110c7b6fccc1e40be7475abcd4e9ad775bfb07, 0x22d479dbbceb9a8e90123107262085e32aaabc0ba6dfd34f529d9c9c7b29b698);
  (0xe0e795f02db91cec518df1ff878081c3b315b1bae9613ea72bf376a3cbbffb6f, 0x601ec599c3c615397ac064005efd3b125579fc0de4256f6e8d21d0528dd1c175, 0xd10bc6bdcc0300b8e82e33cb3d00c5f7b33842f7766993c3205edb624d05161f, -0x7a02563975506daf69564d852ee2c2fe87f1d9034ab1b18e06f8d3e84d6c6a30, 0xc59617e43f47ed3f001f81b7f39ef2146940ad76bb31b48686b38f376f5facf0, 0x1b1d36465813dbd550a6d8c482ec68185f26fc0a31d7862e7b3087d7bbe700b6);
  (0x8212156be9d4b20338effcf28d1cd5b7dbf37b2eba5c69088d9e2dfa4818b8d2, 0x144f741ae4da0d913babea1468e8fa4ecec13a80d8a5f0ff3c29d1994763b534, 0x90e3a30fe1284b5c734df8fb1e6fb82c5231eb5b29b277d05820cbed6ff4fb85, 0xb81500db92c7199f4069029a0212689b48fde4bc2ee405c50b224f9d0f34052, 0x42165f089e73c88e80ddf170104e022a6307b044a5d2541cd9caed227643c5b5, 0x2684a24e1eb4ae5f940edb0d62254122039b970d8a1c9155b0ac41c53ada7a2e);
  (0x9207a68608a937354d07e341e7134cf4a8b1795a28d24751522719c6765cda8e, 0x5845e75033a7b0ebb31e35de796d2868c53ffad4d4c7ffbeb16c7345cdcf900b, 0x848d8d2a95deb71953a6e60d4a61783225010e2d200d8521bf8a5580868956c0, 0xa076c688c43a3f4216a8732250c247ff340a0ccf7dd29b56c404ea06dc7dc0dc, 0x534cba2b698795a255d124a5bd402c512b34c7e4b69053b31771fd8e6a981711, -0x26c495a6f167edbd790997b452473f720be7370eefa6de14120b1a7f324d92c7);
  (0xa3b5451bcc960aaa1513783200b68a272acdc9e2d4417c0a9b90689df5b1dbe7, 0xfb8d08291e4ee6864fd1de30f31d51da6d57bfd9c0466ae7353bcd59ed4fcde2, 0xf3f4f5293f85b5418337231208fdef9c16d56e38ecae05890e19a003f686006, 0x137fa349b14981b23cc719a735f3b7318530a946b444e351395d2a500abb799e, 0x68b0565c327e5d0d583e00c425dd3a025e9f62f7ebe993862cec3a5a6a19895e, -0x6869e7483d9dae218538c946e8cc747b7a2b331349afc639ea0ef9330ca9a807);
  (0x7295463892fb717745161986cfabdcdddffb56f1b574d1382f39945660d9108a, 0x46894f1a935cd8bfbc5d05239cdec622fd86a239744c6e615b258d6acf7d688b, 0x12a41796b9ff4f84a5af3f322879b06ad09ff1aec3dfc812820fec32cac3fb61, -0x2d7e368629e76a2bd4d5c12d8c81170271a41616aafb27f484476955c23e61314, 0x33494995340606a272d0bccfd47ce45471ddc47ac21ce113569a25aaadea7bd5, 0x5105353a34af089cbdb984f22d0872dc7254bf35dfac7c83107a7a985bb086bf);
  (0x879e42671faca58ab68849b19c9abf1b6ffbed997d6375ff644ec7c640f6f81a, 0x6237b9d57108c54f684943c13963543f74ace3b19230668ed0fe00250a7b00, 0x2d9cecc27e20c5be8ac5bfb6c3043f3322cd6a47dda12776119efa72407937eb, 0x198c90cf1056d2ab35681dbbe3c2ae601889f68fbb3cf25f483d9e1885e678a0, 0x47d84bdecbec859429f10e37e7b9c9b007029deb663fd45830d5252f9752b1b3, 0x2529fba6c84bf69042abccbb6188f696cb1fbbb1d2a5542cc6079a4c76c52e52);
  (0xa89f1a9821ca1a378d65c46fb83f1d76ef965cedbb8c448f1426ab3cb56ece43, 0xdeb66443427ce9cac06b652e4cfdf1d1ee663fea840e5c4c6411d5f58a9071e9, 0x8d83554c6ac07cef7893bcfc7db2fcbabf3ed9c0984ecfe10f6c55d379439ea5, 0x3c16381b5264716532c8ad4fee089041ab9fbb47b1519cd82e52a11064c1d682, 0x6f1135c9b8167cbaac5f5b3cee28613067cf8f14c2e520c751c1d21f97a375a0, -0x92716a9a84c34ba5ef5a3c474d3c12c33aac12b74c54f560bbd1f0a48ce1f5cb);
  (0xd59814cad7651ab6e114920ad1a3643f1e71daadc9ec3ca451f788cd9893426f, 0xffe3de64c5d9c9e9b28dcccbf659322b7a8cdf7752ee038b74e8d5d5c74c237d, 0xfcaa932e5f49372977cd7a25ca91c3613d997bc6f22fec0f7acb82ccc9a9b222, -0x56babe700f8fe61a39dbc58b7123583acdd33c87192da7350ea108edb714b727, 0xb2366cf23cfe58e478ad3a071e22d093b912231253d8b4993c0faf19598e1ed5, -0x1bae8c503d898e4d611559d504ca89aa6a82e03c0710b35513ea3729f12e7833);
  (0x17d6b3b542aa074475bc1fb101c771d818b3f8d2d75b35bfe05746e87b4120f3, 0x11e7a4ba260f198c9b30c56cce9f660d2824d5b85623a89ba0e95b35e506a6b6, 0x97f3fb6dab623cccf36b212c630488f8b6925ac2467fa60ea2d90ac372e42eed, -0x2d048c94600f009f8fae9de795e2e81f4ecd393d946f40ea803aa9db0d16191cf, 0x238485b832cfd238f90c4574e6d57a1019a30a051adaee52d4e03c217aa51b9, 0x16294116669cf3c351112f62cde772a6725fceb2ea26831a17bd9bedc8a88456);
  (0xf2e58ad6c905e33636b5d6a59152cc6e3b9d9ba62335fa2309c8c9635b418553, 0xe300d719815277852313a85d86ff183c5a17d6743f917fca41d8d09a4460b986, 0x61375a902341811de0e10750d2831d889327d8f8795d73e5f13480e6c3394e26, 0x5fb2626141aaa0ed8a04a24bb1a28f1fd63e62cb0cf8d47cf43c75f78fe7c9be, 0xe676c84fc39f0b0a0b163bb05a14c4cb815c31d6242612f911f27f9b9f107247, -0xc6654e8f37fb6ca114ee4164716babfa3f68283b89bb9dba585bba26ca4572c3);
  (0x127a5c9d5af2ed28c9eda58d13fa469761bb074ba0b83ea91fae30599665b360, 0x3526cb47178ed388e3f0fc002f68d97561a7efb8d61da967d4070261fdff48d3, 0xa5d02418ae21fbfdffe68cdb3ff5c9d2e256fb1a3cc8dc65d817aa924c548c37, -0x24dd6c091edd561fdcc4d02663c49e715f53026f801fae76ca8899ddad0cb6eec, 0x1556f82884652fb1001cc3a088e1bf4e6487674ba20fad610a00e49cc3dcee1, 0xc8c6da3a672a826c4ccbcfcba0060a9340d01ff15ceb81f2a0b264c79e44e03);
  (0x25e8c997f7463e8cd1eb85382ad7be8193434dcda714a58e57d4a1958f488a6b, 0x51a49f76c9d911c6fabb3c7a4f110d7451f02823c3abea238b12b55be527c138, 0x78a26738f13d927e80973e5e89a916b085fbbc6f181322259a2ea9e9722e3213, 0x9b75471586356cdf1be1da4ad665fcc57465187054292b25f069e810cf8f3a9, 0x59d1df3efaa79e805da1b212e992aa7b1dfe51538f30d4f2bfddb6cb9f2c708, -0x4381822e555227e05da434f13af7e8bdf17424c4bc599afe137e74b7717b141);
  (0x726118b399172b1262d9ef7a6925d0214f8b4abaf3e0e4eb54c11ee26c8e11a3, 0x93bc7e39df7d38920c93cd5edfb93f18f9b2acf593abdb146fced64e888c1b1d, 0x196bc6fe8e1452210672bd9594a1907d3773a4531cf75b373db1e16956c836de, 0x1daf61f708f85f7bfa5f6b5a574dd70e43276ecc173168f3a90903a5a544a6f2, 0x331a9ed3aed4d09ecdff644458caa6dc63e11aab7764ca19076b6fb5a2d9e53c, -0x1d87b29ee2a7984f03623fddce245943d6862c72ac0f3857b749ec8528246ac0);
  (0xeff4014368095b259334c6d79d4faa87937ca40cf4782d38351a32930eea290c, 0x3c421c5f2c13986da85832b94edfe18b50ef90af5c517f08661713201c8dab29, 0x56c4fae2bd68fee9b4888390058dff3a4f6719c83f0edad895e60633ab7a4295, -0x1b27f5703b2a2fbc0072790dc087b6ccd5c919fcbe2b6a234d42831836106ef5, 0xe0e982ee44c162959a60c3192a9f5bcedeea23876d510b7294bc396f3de997a4, 0x51fea26ef4e8fe529be1a5411e18a320ad3af7fcb714b829b9f6bbdecc4a6dbd);
  (0xc203f6a6f3befe77b5435cb51c916996d225710a9ef37fd085fdf4e6a7763580, 0x2bc23d0b4cca0cdaa4969ac29286db65deb5c03ec01642c05a27e386dff9278, 0x4b91eed24f736bf4c509ddfa38b963081969485bd9934324523f0eadc2d5083, 0x58f810f3849d86566c64bbb9df95253d94a137ed1123e065242161ae47fc510d, 0x930a01e4befc797b7a5c91492dd412e37069249813b75f7ce1f62cd98f4133b6, 0x2b986a5a208c560736f32255662f90ff204df234f3dd8ef1e8ff07e3fd6ae868);
  (0xad4abdec95ee2a4a2b07dce940de1d3ca5a82e681f21ccdd50e6307d66d901de, 0xe6415a66ab08e833ea4c8e677377b8c3b6b4900bb7283e825a0e0076e7f3b593, 0x688018a140e5ea2d79458e4b6a7c643d5b6f7ab9b7ffea0e711394f592b7ee29, 0x4e8aeeb736ab988b5c6108667e4d77551737bb5571dc5d5b09c6d234414a86e8, 0x754e1a841c51c2df22681834ea310126c832ed723aa7528c379d92977207af13, -0x9a037330bc1b26ea0a89b0bdf11813698f654cb126429e153647ba7d7114cf96);
  (0x73ad92fd8c5db7fabd16ac9741dc7c71c15f657839b9251a134b65f8dc141bd1, 0xa5025981fe8795f029cb02723f0891cb92f5f7edbea55f8c8357149d9b43db3e, 0x9d887626d5372ab099f4e40e008b5fcc795b92f8fb34ff00b5bab3d6ea507718, -0x20edbb21b44081d7c9e20e3e7e19e21dda0493ec35ec617ea395d5372d3a90709, 0x344567bfcb32192f92d43886347f6511704a4e17500c706b8435e5869ff7bdfd, 0x1d7b8a70e1934efd96c13fd27da6bbf3c4f0107747409041260395cd9585a424);
  (0xc42af444ea43490923042acc1b865ddf7136cbe633c3dc72f9774b9d1c9d8108, 0xe28802ba72f9b091a86b4b1afb9c1d432172d985c6029107654f2b8711ab4d84, 0x6d3f5b8d9d6c80f3aeb2aa9cae1c29df3f4c9edb2bcb51d7d8ebcd0a6e4d981d, -0x236fc8f4d42975823cb08b1dd3112a4f20356574e171c405fc208b6aad05b467, 0x9651cd3e9667570781f529b5248cc173d8abf489cec156dac7b0f627c1aa2bd8, -0x2f24a830f181914de6b7966b1332959492b308f8fcd43f5c0ddf8e74df7e3925);
  (0xd4956482b271a116c16e88fcd2134e5d0b5d87cae26f1fdfb3d46a4f1508c74b, 0x59dcbe4d0b3dd2dfbb1d9515ec4ac69d0738c44e1d1553d705c8055247990968, 0x705f3714a5a0a68fe704b9399fd2e6a1cda57e749d0456a708ff2dc651c9ec72, -0x1a3ecd6101fa5b87ca5097daaf09c9618c73ee549b53a8139977fa1d2cecaeeb2, 0xb087c5a69f264935b27fd63c41f744900114703afa24d0609a616b1a8da17049, 0x717d96021a8c2f309383c90a789ce6643a3765909deddc46a6355ff21daa3565);
  (0xfd3b8e99a7a7d01039a5218dfa94caa4c8facd735053f7dd4a388a5aa9b5c5c, 0x526738a9e6223cfacf07b57c2c84a0739332e8d5f35c88804e8b94ac42bef5b7, 0x532664fb1b334a1299c1f1be72dc5b9150b5a8fb9f10bfd450ab509c1a4c5da1, 0x1c96e5b4a7ce9ae644666a2b783ccdc0d056723f2fccf8524dc8231833d397b, 0xfa7ec5b6bfa3cad1f8a0093e7ad23cbf8e80a5febe4023e44d65a2b76a668b, 0x760e14fb285bb7cd3f2ae654e97630db467e159acb433feb3f1f9f3ab24a49);
  (0x4253f822ff73e90fed9999c808813be22e9dc4c29d028f29a8fe99b0e75b7cb1, 0x83e44896d9316653e0a790c126f02d3fdd4c1e37d9c7710cd666e17a69136c58, 0x938b1b19cec1f0a201fb57fb9324a57f8212ea07409a7300f5adf1fd18579443, -0x247c859a616a763fb4b61c6a7e4c2d339e4c05f876ec22ea76630c0c6b03f491, 0x112f677ce2ed3d0ec418284286ae08262a01581ea88ad5bead4bb881dd9cc8db, -0xcd2799f2be85a9b6bcc0f94b529c039a9de4d835438622dfe49631150ae80f5);
  (0xb6b88698894348d0b4815de8b48986858f986a572b28912567c7fc0283344e31, 0x531b1d3a9693c34aa3447c6179998d34df70fe54dc9fd2ac8b877546fe513ee7, 0x9ab7391d87f1dc74cf1757201f0a31c5fc0e446a80bacbde3be297fba979f0a9, -0x95eaeb503454ce8156fccf7c925c1acfb53fb731a3b83a0f1a25832a24c8dce, 0x826ae462a53506d7266575ea3a4d343719651bf90252b9850afda40f860d717c, 0x22d22f111ff87796e40f4646327e60d9ac8f830fb92769af4ec2a645c9ee8975);
  (0x7267d6ca8e9c756bc055692452ae7828cb296821bb003bac12199e101518e3f5, 0xd7f2168e077dbc0c8e4f2ff6e328d3e4f290057ed91fe47eac533e75cf76c4c, 0xae36a012fe58008f96cca377939971b43ca25f179a2e582d7f6b0796fce3dbcc, 0x3958ea73e9d8f9777b34357f29af93765d9acc1a41025f9eded631a58f1c3b67, 0x3320a56af239612d66ac3bdc21fd66dc4cf67a87128232501a3152f755db379f, 0x1f1bb24d2cd5c4b3eeab19804948e29eeffc1982f690893a49559f99d2953862);
  (0x25fd5575acc594a34723da492c5dfdeac39e40bb5874ed6e837117ecc3261592, 0xa6e1755676292e568c0d849cd7a25ef29e3cde8ec8c2ab534bdc59a7db021919, 0x4ff5775e32ac92b1ea5fc41f57a47d3d1d2c7d662e46965ac2b880254d865667, 0xf9f1207c7ecce28b6a0cebfe735aa8f8275d43b61c8492d1fbf734e93906261, 0x5a335660b0ff65193335cacf25fd86c265272a5c010ad24fa8205d7f0f45cf9, -0x16c2ff826fc2419470d514a643cde4a7f0d497af1ad2c733a822eefd142b7bdd);
  (0xcb08e1853475a6463a5d1092020c655f02ef18856690e0091141a3727eb7cf2c, 0xe3bf2cbac1832b6a8e123f84cc3c42709643c9a20a5f15e78748d728b766b0e3, 0x8a60aa63dac00e1a848449536bb2214307ca991d579e9f1564a0f44c1c355811, -0xc786a8ab3f1c15f3e4caec86dd5a05cce0d69864b92dffddab0b83a565d7f22b, 0xa10715f82031489420397746c419f79cdc466047efc0ad8bb6855ed5af9922bb, -0x3045ecf8ccbb25f1aaf92361951c00773d859b38d6b5042a5cbac14aa8d51f30);
  (0xcad9e15347b391fa8ce5d6a7bf3a23154de7608bbc9f8281abf7c339b25e6bdc, 0xcafb3051b403a292a0be513cef90c7edf44d56bd0de2a99b59a42cdc1d5d264a, 0x40f330479d48cfe53bc185eb8bd5aae57def7a08d24a2a703f7e57904e460db6, -0x565b3eb94749e773d0540c88f22dde64d196186a03de33be404f414d1ea6e65a, 0xa0bc910732aa6fee1a3dc178744c4e272cf4e1569161e170c01c06962210a3fd, 0x139fb9182905f82bb71bc43daf3c142f75a41cb92c5f029830658cddf31c5675);
  (0x10db7001339ae1ff473a5442998b75b7b8d273a35ed04fda8a9ed8a39c9b2059, 0x427fb77dc96d69783a933baaebd414e76da90827db0ffd4fe9faf0048cb3ce4f, 0x86e0d8ae298126022636aca58aafdc6760efc086deccbe7352755436655b0f58, -0x1da465d3737bdb08ff8ae262fbf933cd2425e1353b313c9f97358cd18754d97a0, 0x11c2a18f982b4678b075e667a58bbb50661f27cf13b8003949a4ca0ba5f928e, 0x8fcb4e444ce6d5fa8e9dd6d4f38b99f8b012365fbc8d484851c20a6442ae6f5);
  (0xb8c1b95a6f64d95948f4c76af2bac39239dd3b684d942f2e94b0f919cbcd08f0, 0x61e2aadd3f1cbb8903b398fcb3c0402e5160c444f37a29135380ff00bcfc6d72, 0x843cf1c353c7ebc3a33d9557e20f3fbb0c033f76b9dffee8fc131ff639e6af7, 0x25b85bac6230c8101648b7760871000e617ce80e08b5a7cb36d7cbc50069ce29, 0x85570d0b00b0c37257045a2d741101bfac320f660677c554d2731f341f960859, -0x16a6df3fafdf8c97491d3af0ef719fef3ba834c6eef9e526ef986fe0d5fd8c5f);
  (0x31877b389f607676df56e50ea5f4cc63794c1b85e06aa47108cab351ef4df3f3, 0x9d2c9dd628de185b48df1d1fba9b46681a349efcb4733f555f4061e6d44fe900, 0x596a243840e37cea8ad4de746d1d24cb877bfb5a999f384136f332938bab8f29, -0x6d15f5c75269e80bb4ad5aeb1a1bab54722e3af2a843c75643f532c826b5bee2, 0x99524dede0a7ac34221d7752082471a48472cbc292d22bffcaa631f9edb0e85, -0xb78880a6ad54b92905a29a7b29536ca7676865d21dde8b8a4e1fffef776476a);
  (0x15c8d5b2a4badd918dff64a101744f7a36f71cf1f0cd22576bf51548fc0d287f, 0x8db35f6cecf04e144e47a9837996876be3949cefbc410d3f811831eb6a419df1, 0x752724fa97d4e1b38af0d7a52de5422b6c3c163db7ffdad9bd2266d0df6fdf94, -0x344bef78b593fbc145b5a9cf5d25a4a49c12985142c556471ae5db8aa71defc, 0x1da909de88acf1c874a0e8d4fa1691171f9d3ab6323a2af89d081f48f6795ea, 0x15115c211513edd98a2309445de0b9a7dbc3d05ab66c6bd155ac91e147e44b4);
  (0x2100d46e17fe6b3a15be97eb97bc7ccfd1515b7316cabc6e0a9519279a89a6a1, 0x9f7dbfdcf31b2636c400694f2ec19dc79a1d0812e87d715f5ca7d1e82d0216e4, 0x16f5321b208b7ced418e02106868d51367724c485963fbbd4ee6092f478764ec, -0xcd18646f84b4a34e6633d86d8f435c76ad0c1f21ce4a826d00d53badf0f8a4bb, 0x44136c512761ebafc1731367c9c5ad12a0c257a00bf2ecfa6c7325b139f34bb, -0x24b2531af489803f1f1b593313b992b63bda9e28e0c87a1e6438a501b79af93);
  (0xe86fa533a6518f7965f0e0203116b0553ce67777cd9de0ede81669fe38f0fd2e, 0x5f498f444cf37f12ed4988f4a2e79324fa712b0221758a002fc4f98478fe33f9, 0x68c1c2ea31308718a03238e6bb75b91e0fca10c4532c7e82dacd490cf5214d86, -0x24fa7077044a639a12e393300803353f762dc39420508e31331914a47cc2bcf7, 0xd30a8c1e4ad9ad97478a84f15f363bef778c37d27b6a751ffddf3dd7d6195a81, 0x3a4b4c1a0032582c912bc0584fba922bf720ec46cef6e729ca267d76b90b58c8);
  (0x1a87750cc234004ed8aa9569d9e56645810adffb95e7cd4adaafab59a39dde86, 0xf0078ddb824e5dfd7425ef3d810b90b00411a05ecc3905eb22d33c02fef9799e, 0xed473f40077b67dd48242691744aa10b04474c786af0ae207ae7c1bbe249525a, -0x54b0d0a87077a4317270e4609872f1fbc93b410140fe7ed70795b5acfa5ffa8b, 0x2bfcb73406c0d0ea7a61ebaf2e1d3d9fc935849a14e5c3cbfe7f6e89e0d5394, -0xeffe23aa938c9bb490d2a28bb53847f71dbee48d5b01b3aabd1644e0797bcbe);
  (0xfb711e6d572276d83a15123147501926590f97f3778895e0b54decea10296f00, 0x35379c7773105dd7c87292a2765a095e41d3f8883e1b0806fd1ed268dad0c995, 0xb6fd32658e25fc6ee2a75b2791bc10f3fd234257814d07210b1676eed119cab0, -0x771b304368dfd97eadd9fc6fc04d6218db50d8ed436959633b22e26f59bbbee5, 0xf6f703a64902509851a4eb6fd7a2dcd9f1808a28c2c70d7c4a85ec7b266e0e67, 0xb77c6daad085d74774f680e3545a4927ff317e22f58563116754cbf9849c3676);
  (0xbf725862900603cbea0120b97b30e1b15c86873021d5cba10ab7d00bed41eee6, 0xb31b390a0205c3e137fc477ae24bfabd4faddf85007afe1c3fa8d002b456c40, 0x5f2ca94347750e5c39e3608b5d8ca233b11cda313a13302ad1b93fda0eb14db0, 0xf081107535271667ea7ac2363ea866ac322eb52ed93746923f0ce18b398c77d5, 0x8f2bd2f5e93527fc6107f53f6f3fe1cb7a4af755a07d7cad32ed10c145388eba, 0x1f6d2de82421d0b67bc51b4d1f48a9361b26352919480a06600efa6e375c2a7e);
  (0xf056683bbdf7e088c29145b22c54431361c68a91f80a146d008dd7765bf9ef2e, 0xcc33dbe89e440ff5d3cc9df1620fc1a6e630d662aaef92f99c6fca902386623, 0xd2cb95a6e92df22a20b957afecf73b040fe16da36515e6ef78250c064974eefe, 0x64fd1bda2db16c704d05d15b747ddd92322cf2f0e515a0f652bc59b5dcf44a45, 0xe1a2209a36c4ffd5cc5baaf59a8c3d5287e346cf6eb07b7ea17de11d92fa527b, -0x178f912f46ba5a0ea712878ee02d931613f2f403aef721ea6c79df71c7dfa78);
  (0xf31b47fa7c988d336aca19266697998f6c989a4eec54d69b0cd7a5c110462071, 0x54761918606afdd0ba9672eaccd47e50c69712e2e501f295ee367af7cbd9e135, 0xa5b783ec0445653f74706bb513e8f299be37a7c6a17f6d77387cdebb59a6df3f, 0x18e72c382eb6e41f82f7f60d58ceeabc3fdf16a737d3f20672745d90c226db8a1, 0xe6dccd8dcb9cca719a7ea3baabee23bbb2d29370dde04ff86feddf7f613224e6, -0x44166a3c2b8101a92e3ee3c6f2e2e692cefe672214409392589260c34d2f966f);
  (0xb7632e83056159f61c8755426295a3756ee3b46f4f4ce574738b326f6ddb9b13, 0xb468700f298d8b78998001bb47d5ace726bf374204f2c12b48eba6af008de546, 0xfb13b7617d4f162f626670ed3e5422edb98a46d5440eba7afe56724fc4f45202, 0x1892b52c1be0628c1099821f2608e52feefd379bd329cae1e3264dbfcfd0d363, 0x835ef2ec537ab0e6ef37033b98ab4121c8e86fad658d816d3d747f24c522b548, -0x44bb6850b1de8c4a2da34a8fbc95865e63dcca8396b72258ee014cf25a522484);
  (0x8aa2bcbd9374ded9f7622526a0c99bbbbbdc5013972dbf7aaa63b68f57ae8ea9, 0xdcab2bc7758470701e4f80c0a9b1327824e347dcca7279a9295616f8dcaeba6b, 0xd5860498a1fa1d910175dfe139fb5bc07e6982fdbeac3efbfa73d60250d38396, -0x6d789fafab3c8791bd3d77fa6750e82cfd0580f6d2479a2c9ce7db43461c74c8, 0x4b13daefce0f9d23c16386bd215a1c80f980bc0947ba0deb4e83563dd557461a, -0x15cd911af5e3cb97c10aab017d0e42ad580bd4da6678f7c6dbd3af4e16245ac5);
  (0xdf77c7f57b2c408ea369b28aa7db138e05346107550107d0b709f5f57eae3b28, 0x8c0812a4bdb22f1129be12fed3b743e0ca41a13fe595972bf06ca4e05a535b76, 0x7d342bb91a0c57524a1fb30e631ca8636bce00a502908618b2a840cf19b0b929, -0x58f461923e96bd40ea8c1b35e410e03d6cd079d54806385ec7fc29541fe07c71, 0xc311e6692eff2c804fa2f213fb92672f9c854170035d9400b724918fd3cfdb79, 0x4663cdb208b0f23e2bbb1f18db582adeb9b1efead7e41215e4b058904c303549);
  (0xe2c7402f98eb481caf05049d6c50a1a36ce536958c5e19db9496c17ee3aadaca, 0x5bbcd1c76b01804250d66095ba867dae12476ccc5f38a192da16802d8eb692c9, 0x5042f57c9266ff76e0a57407fa8eabec199041a4bf8f2e76985f425462b7f344, -0x7f77ad8a109fd52d5a89992ebf4a5e37193e7ac3dc8467fbb05e2a34d16b078, 0xc8e46868e416fe6be76805dd6ef29911eb0cbd4d12b388c66e89ffab7651f2ef, 0x2ac805de99ec902b602c80f0abae3d14065e8956c29342975e7a7819bf7ef3d5);
  (0x462bfce9a988463ad4dab917044c9c47d25e31cebe2abda7b80b1db701c069e7, 0x1b7316061659f1455f17c3ba96fe55b89eafa946c1d89bbfa9c7e65178f75b17, 0x1062748417320ed39ac4cdd9f85ed34a16e00f04f2c5c8f5fedc8066ed77ab51, 0x768810cbfa07840f382bc3f449f9bde5983ab4000a666da0e745b00fcd57230, 0x133c15deb912553a18c3fe1d356ebe4254309a248fb460dea98ce7934cb53d2b, 0x119f353ca920214a7aefd634eb915128d2d2f203f3483240f3ec3d9828e729c9);
  (0x695c21511379df0323fbf409d918cf37be3b0329cb9ac6f48a34178177418217, 0xd937a555c760001819f8d80943add9cb92204bcebfc1b6fd323dca915aa144d1, 0x398d7c5feb8bc35f301ee5738793468fb1d225eaa9f38a3c4dbdb45803f11e0b, 0x4a81f75a0916f8fc2b4376831933501afc5123d56a289815f29f09ddd71f69b, 0x2b5cb47c7895f93b9ddfcbaa401b3f259fffb81adbed234c0dad51284fd12c92, -0x4e19ea1da059a625c0d4314cc329c88f2af3f3249b267a19f1fc7c62abfe8692);
  (0x24cfd4548e8e927563929741ca7de952f00a5ca9d30ac4ecb0842b6192752048, 0x163859fc5b8c0d8297204c1756f2be7f9e714bcd2edc36a0630b283f31d132f5, 0x3a12be41ac19b646e6cdf6153b2dcaae939dca9144c8cb775dbe4b87a4d684c4, -0xe283e517d4b56ba2f7d2492e46c5a1748e776ed124980dd25f7980b400cfe8c, 0x54b1c70d8f2cbcbdd5d4570488c4da0444ff3f8aed8735744e6ff8d9dc065d4, 0x1c0a34c25338fa177ca2dca156c88315144f2b6ce88ffa131c0e0797ed455dd1);
  (0x51e39b025f00a4d6996b5f4853cb8861ef8a780e2e1ca4bd43daf931bcf2e6eb, 0x7d40308c255fdc7eb5d597d33066ce7b6abc5ebb58d17a578ec5c9666840f63c, 0x77f1901efa006f8b2c5504c6d958d46b0a6177952c9b3da53701915c4adbfda1, 0x1f5dec5a23d77e51c674faa3b29d112b20b9a061b7b3884afafef04a825f9c2d, 0x1a31d273c42ec2848889f230da5bd309da9d431a105974b1a9b616dbb73737d3, -0x20f515397390e297e0e6d57232f8cbe0661333772cddaefd1b53464a0413f812);
  (0x5cdc8326358cdca9df58e4af00909b58bf9f8c1115bcec1f48a56c0d0619ac37, 0x584ddcf5818509f76b5d80b60b849358c7782a726c1ff6c00e17a8b02e1d8f13, 0xa8798831bf734563a38a75edd1f981811ca4ce0897f8a72d4cf857603192cc68, -0x25a5a8f227278b6ad2a077109971fb35181d755abcea00f452e29c49d37ec18, 0x21af3c3523596937775ac30a8c1b673f23e851a5d847c00a454159c21f9e2ddc, 0xd66e9377cd0719781961a543d6f4ae347cb14dae91083df7cfedcf6960e1446);
  (0x8bf8c62f539882bf59224da545c89fc5e416187357ebb8e28872050687d12db6, 0x519614f9a0394269edfc0afd994abe4e88a9b658facf09403c3ae862d51ba83f, 0x4c09a42c285528aa5bc1801691bc7eb683599b6525aa70e37fcc994ee4ef0fd9, 0x5cda8b71d547d504c2a6af89a1c86717478cc8397c8f59ba3c4b108d7caf0365, 0x4c8818f7f9e6d388d514328f4e80397b23c3460504f2f99f9f99178fef52a83f, 0x3ac50d2e1f284a5de02b2484364d4668f7fb63b4031e77f39fae97b6a329db7);
  (0x24d20114b3b20b5fae7f42f96073360def03982d1de582e1c819638a9833f19, 0xd390d8a325ae70c27d5aab6b30b4ffc4f15fc03444ab747b94aadd122157a2db, 0xcf1e584a625a068e6bc0265912bc7ad349794d27ee8e04a581732fa2983108dd, 0x558e6f89adcb1859a38800cb3c3d4676041810bae46ce47b2e5452deb11529, 0x54bbc9398820e61881911abe6410b54620e26524e2db77efdb64b43fdca71, -0x12b1e3c4d56ba45a4a648f95d8a45ee8c61e87f2cdec81862991c1954e22772);
  (0xf3075346b3cc57e76935a8fff53abd6a53f581af849b7de770f5ace9aac14c45, 0x6ddad85ecd8d71695864fdb48cd9e6ff8ccc551e92bebf407251a46b6a364a39, 0x8bd4f90b3f57b814daa7cc25e66624196c4a88fe75bc5af71a9ac55c68fb19c9, -0x8348cf2dfd631927cb49a27908173eeb01de1554bac255bb436d3c354042e3a9, 0xe6b6e84de24ab02b736b2695529b245a5b2789a00d54430cb2bb9710d85f462a, 0x608eab50facf68b03088ac5ca4a786084a23b3b4c0c9c0138564d3070060d404);
  (0x5eaa5b5ee80d2ca3fb2125a7e4fdc1e8ab45d9848cda2b18ad92b10c4c4f7af, 0x7fb74570c65a551197979d117548c2a73d504df7b38e58a0de9d4820b4fef1ad, 0x8dd2c5e3ab57c7863c1b33c0f4a4fde19d598005d3d24b9b082c9d8f09f87958, 0x34b66d0c3c32729073f3f84b4c0341ee00ac2075c08da2718ca411563fa48d, 0x23018c772d127a704ff71e3a13dfdc806f1784a349770f8bd456d4c56c75d5, -0x69ad2cd013091d84c183d480f7948cee3d5c4da1b247b609269af9a4c6bf2d);
  (0x11e324ac5d847823ea790de3efcc7b2f0b881e135169c9b491ab2e6953960d81, 0xdbb54eebcafdb9c6ac9609bb1ac46cf063dfd8e2d45a9a899be8fc74fb986a55, 0x376e8144ec6caee6266120fa75808f4c472fc2aaba90b09edc7979b9f5c7bdae, -0xab5463994b9a33ec4e19425aac6131631864c59e008a96f3b3d3dc06e1d6344b, 0x13ff468f35a5f3ce2caf4923c6ea483d422c0b06f8b2088c758ff041e8306d2, -0x66d7e113d02857afb740dfe2c7a8fa12569fc76e6979cee5caec23d3e00522e);
  (0x2ffa0a91a9be3c18097cab5e0ada6f28b2fd0662b3628d83caf45a6889230522, 0x99e4976fc349abb2567ffa16867fa79722472cab9ad2999d485f7e507048e76d, 0x2ce52732c9099d8520d0e2605e9c3c62e21f47f341c3868254ef50c7a1fe898, -0x12eaf76cf022c25078a254ad5ffeac35b78c77efe193d0479690c420a7f2414f, 0x8fdc41a214315c2c92cfb18b696d6d836bf56974811f849febfb3e831bf761c, 0xc559a3a8e900b7509592143bd7dd81006cedd338471b52ee38c895cb7a9b80a);
  (0x76f920e5fd2d3f674a61981995ff7347f4cf13f0cc6c027a0c53e7d28e733dcc, 0x93be959687f3bf76ea69134b7edc9c445e3cf2bf24640d3eb5ff02a68ac66189, 0xd5f0ae6be578492aec08b00764aaf451101b432078e1ea4aa22b7040c9745e55, -0x112ed714ddfd9c1ad82fa0638597429d70b01d1c5234128242b970a405d3c413b, 0x374a9cc509068662ccb062c673b6d9b61a3dcf95883eb6fb527f37d0b99f01ed, 0x2db809c33f3c63ad35e507b902e73fd4f97130da34b6a4f370422fb5bd53b03);
  (0x10c1d5df1a2ffc6b2de58aadde705dfd40ab134c93a6039f6a9996b9706fd0e7, 0x91c62c9fcaafd05f663b40500894c6e42891dd045755c9e759045068819126d3, 0x8820ae95256d1a2a331064c03a99c4c9e621327656290f1a9629271d97a966de, -0x1e5a0cdc79cb053edd058e1f2358cb15a5719c0cdfbaed9ba80b15b837bfc3f, 0x118cd8010587fea7ba9cacf323509ed71aa2344c3b4191beddc2be86da25faf, 0x21047bf4c542c6cc20301dd21324b9ec72ce8f10ec6451faec07000b40fc47);
  (0x790db49e2b994857de58975d73ad77d6fe4c4a785f6485e6d13f544a41e918fd, 0x11492b9c149ee1b3483070d4d20419221bbadbc8d15f69f43f5a86ccc7aedec7, 0x540b8902dee07c68dd25dfaf82842b946cc9bdb0eadb123c39f35c85749c0b9c, -0x7848cf7152f1df11e9e14a8ae0534a6a97b25f3c24159de6f0b03ad73341082f, 0x393df5795cb622fdcf7a0b4dd33910e774a7c59993282693cbb8d3d99960fa9c, 0x3cc1f67b15fd6a2a3c5edf774fa12dc0fe79ff8f6b232ec7c6ac00ca91ebc6e2);
  (0x593c8a85d280777b9b680b6bfe9391cb998051526f10fc14b98396acd27bb528, 0x682a3863cba79ab4f0b513f2864338656e5140882277fec19ef34b2bfee78a82, 0xeb9de13a2adf80f16736f2b43ff0d5b8bbeaf8af8bd70896e4177fde453739b0, 0x235f91d7a6405a6e95d2eaab0688517cdd880bcb8172610ba68188ab55c9bfb5, 0x1f1b26a2460c8c32db639f3096647e2bb6d0b6fa0234781bdedcbe28f9296a11, -0x1e48c93328b07058830cd6b3e6af9acd33427c98bd5538e6dc3f8e986be1ac84);
  (0xf56e80dfec82d5a76779b603c27917c0fd92f916d1b61839aeeff4e0ae7056d5, 0xec4ad43d7efa5f33e24343bd1a18f1ad14b69aa2a942faa9312e095a973f9a23, 0x89c5a9312f11aebf820ead840df9bc6660653d59dfeff99b4f62aa7a10c07b60, 0x144a09baa0dc8ade52de4c927e682c5017af55ce438d5fbe500e257e5ed1037d4, 0xeb4cb25f9c025dc2c40500e5f0a3436b5ed2387cd50931ccec53798920232792, -0x7eac3dae308f766be1489ca4f38365966c794c4d66b833831c08c2f8f10255c5);
  (0xba628fdba625c8668f11180d656e54fca5bc8348cf3cd26b638586e00de2c202, 0x14313b2d94e3290163e375c1c232e8cb2a4efe31d252f96b532f869f682370cd, 0x9afea8562da56afb845a88648bc186720d1847dd094a5e6933e00c4a56be24cd, -0x55917c3e29589abc5f3110a75993085cd889a9264970c3c8e440c737ae73efd9, 0x87b35efda2713c365cc6d8d04dd408f90700d1c316e57db58620bdbeb5ca25ee, 0x9d55cc71ded2ccc1abeb9658d605d5978c9f8e8f48a843b6ae6cd81b3b736fbf);
  (0x72516cc7ec23f70dee07cb45659940ee25c8cca1a599381fab03a0c0ec63c664, 0x5eae39935cb27bf71718b7a46489715217c1c9a2936a79a9517018e766a29657, 0x2cf9d1ae4943f7e369a7b3c4dfeb08a4280777405216b6df5e5c6397259d511c, 0x85a636a7bde61d4888a7e6e42ef537294e0689a04166d1513817c36810cf476d, 0x330c9ec8130cc22a10ffbf063f20b36b50ef39ee4fe4b8bd61eec21af699285f, -0x21435a7cb860ee73b5e199a37616fde041ed98c514d42cd92f9b20142e326691);
  (0x69ccc9207e35eb118fd89cbd8b716e99e68b8c6e926594b6d0c778af738909a0, 0x55f2eb7a2b54825b377699f242ef2eee8ca806ae13f08a82114afada32cdd2e6, 0x1413608efc5e886a203b4fafeffe80a848db4fce4ebb9fc7272e8806a9503883, 0x9f40ab595059bf8dc22258970d7a14ee0aaccd3355f818090baae07b441d5bd, 0x2bb9a0cdd1556b1382d268d3dd7a27254f1baa65dbe5e5655cd8c1f98c1cf8dd, 0x39bcf26bd5c7468e73716bf7a7d19e1d5070fe19ab808734cc4825d010064c1);
  (0xf8380e2859eee9a91b3ae08761dec310a6e31b08ec0e314fc6565981d9f2d05, 0xc1b7dcefefeb8cb9c7045769c60afadaabb5d624f1ca9d77ce7606f094c2ca0, 0x45ee605ecc947f62cd2dd501a5ed2ca752484860927f01e13b4d79b0cc444942, -0x5422bf470968cb585357a99dd5c3c5a665c70c36d91d050de83955533e598f4e, 0xf0aca7b460aead703a8d7e0a5c723947808a815ca0c98b4e47cb6eb65e676d, 0x4798dd733bfe1c0125755476f2c01d6c9d10b46bdb92beb6ff509d147585c59);
  (0x3151d8a9aa9948ccc21d7a96e717c12afc9f9ccb089e6661e786950105d79530, 0xd2cc1d338b9d0c5fd9622e20b87bd969f00a7cd80e42bb0a8cfff4a6e254eca1, 0xa7c83d91b93040babe5088966c0653ce0d7c9f674a89e0e0b4db6acd8c909f88, 0x148c47e1e7b8eb22bd0e49ef02b6224ac9897c8016d4f8aa8fb9fd74e3af6523, 0x9806f1bc60b6333cecdb5f76d02d5336bbe56b61d9af676b5b03a5d7d1912d9, -0x2647548d63391e06dd510a1a0ab69cc4bee04a75f315f88c711669630e07257a);
  (0x3d8db6caaae3da8114a5d75ce51562613ba158ef3099f46efbd67271deb778a0, 0x59229bb2dea72d07e9046e0433943f3654d91bb10e0bc7e309daa5630a0fb8f1, 0xa1b3f2b6a99f060b8c41c127de01b163a28caf4794d401e9cfa3166eaaebcf8b, -0x1b80b586fb746af3c520f2f2c1a256493a107f068c4adad54325591282a4d8a03, 0xeccd78f7335a08e525f8d6290477728488d164d00f8c3c8c4bef16d74b1a18d, 0x1d40bd16d01e5d4836f702ddeb9c28ed71245fcef391f620c50f99ce74acc6ad);
  (0xee60cc8e89596ca33a8a17d080e89dabcdbf449801c53741158ba3ddbf5e41e0, 0xfbd593d313123d6ef9ac89d2a723c641e8a3306907fc00ca028f8f5a2de7ceb1, 0x999cd69d4798cd470afb717420048f966eb87e8be15bcd35e0a890361f9ccfdc, 0x1b96e56f627d36042a326d6d69228537f0be096f24e8a101daebe076eaaaf46c, 0xddf820f315bcc354294e2bbdff788f5e611cc1552c62ec3a371136e6c74828b8, -0x977fe7cc3119191519ad2ac79bf6b8b89f8aa9fbaa7c05844839f4c11f1156a7);
  (0xcb9728c545b3ad5c54b4ce5cdf61bee349ac238313955fed23255de4414e27d7, 0x8197f1ffc528d043e6c4562c22465157042f74b27f538babd7961b01c07d6116, 0x357c10a0e3eee5b42b5b315396e8a7c7dfe2ad8f049690572def9a446e856b98, -0x1f2e161dd4ece56f13d619fde3a1553ba602f884f3aada4c1e73f5ae717c3c5db, 0xa1e913e9fbc16cb370f2b0b544c502aacfff04d51b41abce6a94a85d994ae8d9, 0x61370d24d66a0285d1c9ec391661d0d3a59de925b235c951940a60bf0a3ad779);
  (0x49c00f1c20154f32e44ab0456891f9b76cd156eed9c33f710ecf03651263e110, 0xfa2b78cc1512f93daf893865729d4f32c40edacdac8f4a70bfe7e7e0d64a9e75, 0x7bc6106c43dd2bef908523956410cc636e49ef5d6af0d73742a41e9ef2bcc0c5, -0x31eab742d2db5d3fb49136b37dcd01763841f57851d1f68059de28180773227, 0x153f18b4b56095fb5a7fa8057eab60279c790a82b255fdb27ee3f2e3371b210f, -0x22bc8733402ae69683499be0019275e8e06067e9111594187d929d9b6b94f10d);
  (0x506575bfef810fd8294b558b5325db9a6f993e5bd84ee9f5f7b0adbe0a894e17, 0x9e74406f9801db6e11624447d4020b8c9c0eae8bbe41fca1948acf09c9f746ef, 0xd6349a284054ccf4633ad291e8f00d34c2eb281835560d65b193f371b8ddd5c, -0x28face787f0286db602269fc5721206e6487e8ed174c12d8d361ad996e24f7ec5, 0x193f91ce154ca690d58321dba47198098064c7a5732c5d984044019e763a3c38, 0x1ccd9b15a3d64ddab3c90202d273cded3743ac84413a90c9beb47e2c46f33fa9);
  (0x36078e994152a8acc419524e5f1ae90105dc66b1ec084e6162fdb908952952ce, 0x84345c15dfef9d1ecb51d8cb3296929b8c1052138b9bcebd0a1f72fef4807f24, 0x17cb6c0f2d2e3fcb7afc71003365a1286d87606635123a5409a1b056828004dc, -0x8606deba39b7572b2ba1826532617b1f56ed0f8757e63fac070b4a93e55fba1, 0xb673061c35ed1e4f4c5c482476192f29e7166f8eff0724ab5d6259f4d25cc4b, 0x58a408952d3d21b1fc6ff9d6f46ae2ba4ce02e3f3e4275893d2e5ea8a8e1ea2);
  (0x48b99c980fae4a12a93b5ba6d061e0136737d660046ada44586821e77d216eb2, 0xac3ea944566761bbd92a5761c64878e9dd2925d5a7d4be809da2e4ed496dda85, 0x5178a7216113991304fb5d54622a6306bb584dd0b2f6757ba849a25465e3ce27, -0xbf4d2f1d634f0bd08488ce08553c8bb3bd673e3e6e1b00b3fbef59fb9fe7d540, 0x14a8eea93c626100985e931891222c304e10d5685c4bfefb0dbf16cd134f1637, -0xb5feda4e77f4cbca856d1d6fa799da676d592f9bb901e8b1cf9a5624a4c8835);
  (0x52259c8e7ff75c29ff9c2d3de11cdea467196f6bc03e9622fc37b80fad7546fe, 0xc90229efc8bee602a764264969bcd27f954929bc3a58fce080bef136d9fea6c1, 0x2d7a647e0f0957877d9b8601b96d948af2e4f9feaa994d3b3e28d80126d3c1f1, -0x112944abad5ef7506675edc6356ce6e0c852b7a4e26dd2b8f67841155b7cf81a, 0x1a5c1dd1eae96fd33a98bab3465596d98cf74506cb08e7cd5bb88dcc24999718, -0x93ad90fa8a22f9cbadb1691bd06d201660080c3a921ab1957fb81c98f6613a0);
  (0xbf9a1b963ffa6dc10d5dd9ac757361f0af36c54c5d7f27efe37c88637f6b0e2e, 0xfa212a53ce0079ad6a57ef9519a0eeb369948142dc4b785160cf8af67ba8633, 0xbcd4c7d477037163f72ead9ed16bf8282880fb1eefb99dd6ad7925ae1cc7231d, -0x19569ce9b72172af3d8f828fbffbff07038c612c6c2093f8e75d9ba3374575927, 0x8f6751ef6735b2bffad2adc64155353ec5579dcfdc7ecc93c59bde47bc5f39cf, 0x8abe49289049eb7b817fa9367d8e0574b01d6817cc56403f3ef4c845ea5d04f6);
  (0x9a3220d8bdcbbb2da0cad97f30115a66cf962c15ced89a9996c9473e9022348f, 0x4d7973268c759b13972ba032c343118dc60fab7b3c31336a15a76a63073d4fed, 0xc407af214d622f9a5202f49e73a0bbef167a759c05929d1bf23bfd78c768f1c4, 0x3e1e606b08a63a56089b8f26ceaa50eb9ad434be104fa8001060df34dd683f1b, 0x5ce059559d3a27bbc694969fcad6b215ee9098c57d3e3f9a872fcbed5613f25b, -0x253fac0deac4563ba1876248d9dc3f0f67d80f72bc7a04102c1855de9d6d0307);
  (0xdb3d44a8ef51bf0590afc7f0d0b112f056aeac1894ead427488ce6b151da24d0, 0xdf1a1c0dacf7975a284143edb0b4cb896ea572b85de106aa3c48768e2795718c, 0xb0ed389b57fe64529940dfb7724469efc5d067f5688808eb695cb69f04ee9fa4, 0x1096c1fc981b66a15508066ea9126d0fd3916061c97b5e19bfe10ec23dfed5405, 0xbbc1e222d4621866f6b31ccd6af7da5094f56b387c2d8435e513dc34fb93b71a, -0x7cb74ad4be51ac48982f210f8ccf4513cdf1200f486db6847ce786bb1d3c8098);
  (0x5e1f7cfd3480e55d92a9b23088e13c454d5b9b1b2cb0162959ca43b6ec05e09b, 0x6e6127ca9381e487d7b2e55cfcc07d424f91493dfe67fd8563d96cf24b072407, 0x1c01e824c09131c1208a0a773c9dfddb57616eccad5ed658e993a747a52060d1, -0x265c9735cff7a4e4e63d69813d30bd75671926f2a027a75e85ab40191da7cfdd, 0x229b23a974e7a4f5f41ac31142f7ec05cd66dfb929228a356b4d69a0948ed2a0, 0x2971c71f4bb186a575f93a054ff3282f131d8674ad67d10b3ad5d6e018781892);
  (0xc25ecd8d17d1f7b9716115bdec7853d0d26237c336d1723b5032851999d661f3, 0x89e39cdbbc6cb2f3fd66c15709d6b17517b9bd40e477681c592c9b047d499ca1, 0x4de79e36fc1cb780cdb47309f8492477d697328dce5548808c756f47d2c35d38, -0x643f46fbb16fee4208d9e5723fb94774f1c22ca33bca3e1dd3036f5b7c4c898d, 0x9393d2a570c2ff908247b0d5f28618e203a01266db29814239b5633ed0684f7a, -0x14e30cb49e7777823b011d10765eaa3c6eab2db7f651e55341eaf65cbd75fd77);
  (0x1b092b9487b814ac87fc53eb63c9fdb6ecf0812ca522024c863e0f471c75757d, 0xa7efc09496ff3a1aa393ef91da39e9bcf6edcf5b086b4345ed275d301e93f8cf, 0xddc6f3fc6619784b2d4ebd1a5da715daf2fdc37558ea038409081270ce9aba16, -0x2050f1e89b2b33ad009f793aaae650f2b7599737d52f76d1ee04fa99510c656, 0x2daef856c7d9b12e48e50c93ea6c02b03492e128686c51156e4c29a49c2fc33, -0x32c5b4f397fd8fa2855103885040a6bb575ce636105d23737e4902ff4b5aac4);
  (0x27eb641acea4e4ebca8ce3b290cef3e2196257ddfda12554b425f66db40c06aa, 0x5680700d69457b50a51f544e2010d3dd223a70a0dafe620a632bb5459bc5c2cf, 0xc394e9b9873954329ad46321deaca70a02e2493f0b05c17bbfd78b84b1e893bf, -0x10555925450669ca8f1f54104c5d3d5686526466e9cd8f34000193688d1aa432b, 0x63990f11b5294bb93c14ccf3d41c89957ab2776dd1a81cce63046ab5e834fb7, 0xcb2d64b868d48189f4f5ac99e7d21723e183c7ef710f4df54b32ac56d69486b);
  (0x97b3692097f3d6e9706f362eed77437c1a246089751b6e9856c92db38b02b0f0, 0x11d9b989906fdbd9298cf611c94a8c3dba9d203cb7431aefdbe7c1200f656cce, 0x2c343d2cc40d98fd90621e742975da38a143608dd257a1e759218f08f458793d, 0x131e3d1d422f9826ab8bc4eb57da78133f35a5e85055ca35032b64a3ad61e1d0, 0x59e523c0a201e7524a8935d18e3c92d06f6ea19fe23381e70ddbdd5c63ee277d, 0x28ae726a81893c61ae0c994f4e8736f89956196c3b3c1a151811ed8ffb0592f4);
  (0x2d405e2ef9f563725cf28a23a16587c2926afc507e5da35660f97a746eaaf9af, 0x547d13d1af855540125a64cb2cf20d184158d6811988a119c1137fd07e5f2b1, 0x88fdaf14e4bce1609d8af4c23a9882d48fbfad71ff797056c5ba45df18e45f5d, 0xbe4acb5e4ba8772bfdce57868a1deac5b1edf12d8bbc425d1a4a9adb0e4899a, 0x7ffb14bbe03c7d6eb22bddd158193c31be0e2cc57ed700ffb7b6b4a21d7b054, 0x238ceef658d28ddc2105c830ba64a38f8fa757789f8207aae328dfd9394def9);
  (0x96dd5d4e35243cbc25b12c75e7ff5a5108e391f5a694d011fcbe4fa3bf00b179, 0x851a25a492dcc3ea9c0a929df67d724d224dc1973a40c274470d1744b12ab673, 0xe3985840a8d81d97d025dcdd748d33f59f81b3d8a58f7355dfe20ad1874ae1f3, 0x42e0abffded2111d5943bf648fc09f9076819ee7da97f0f443cab05b30a114eb, 0x58e828c1e150223e1a427051aca54152005f19cc3269e6e717cf337a3504a3a7, -0x4b53c49df2da4a74c1fb822ca1ab562eafa31cbafbe2914d82a1407503f30782);
  (0x3c4c4d3bcbbfa158856e30775d4d3d61082fe2a7416276a514cc6b3667c85d23, 0x7093f194b6df7a353a3174c47468927f8ed2422107b3cf27e0296c1bd3b53343, 0xefeffbbfe34f509877029e453ea855f34017a9f41aec73446f74938694658aff, -0x64657433558f243fd236fdde8d57f9ea03b3fe8e9551b1b9cacd72fe0b4bf549, 0xe33daf1fa4fd3f21ea7f88b0ff21181b25f297202f94634fd8a162a8cf28aa0, 0x4d5923c553139a4322ce383c726a166aba34e12ca596ccffbdc9ac33d9d0d1e);
  (0x8b20974ffe576b2f7a1a82e9cc4f6e790d280c047d91585ae2235d7afede594a, 0x7b3027730f7e83035d45a17197d33a629519c204126f071ad834a7c655cdef16, 0x4ac45f71e75abdd615db59545df6e32a12a537fe615b025143d66be47f1ba309, 0x35cacf576cc8ecfd292d157de80a0eec9df5287ee4d4c8e179e8c375911e99e, 0x4b9c68770ba1fb4a718f10af7e9043d265ba9223b34670615948224a04c14b25, -0x5c42b0bea6ed0865ad4ebb1070076ee750b29bc8a886c9e996d08c1b6b0ac86);
  (0x2c140054ae04c88229c2348c6f82b44b231095ce181b7ec8569737a566d2404b, 0x667afd6ae138a01c9da1f1f83ac7b9a444548fc1dea89d24dc8722314c142a18, 0xbf3efbc527391f775f143bcc1b73625c9020cddf0de4508b8f9983aaa11ac061, -0x9816bd369e813421bcb0d7410a8c9975626940e5ee61195af7986381d0791ae6, 0x796e1ad290cf1aebc1f5e7bb599c77da55831dfcd14a13cc453230482fbfb75, 0x390c1678a1cf0c2d9b03d8d400a998c7ff3eb937d387bd8e5e47ff4177a1300);
  (0x377e0145b48cee3d2fdfa5fb6150ca1ea341c4a4c7efca501572735371cb5233, 0x7388acdbd14a8b75ac20ae834eb09f8eee70874096eb123f75f7ee29144fc172, 0x3858e175468684f5f41fe4e28914829d09ba6ae9bbcc44ca561133f9aad2eb1f, 0x3879e9dd28a0f08f165724cf94124a40f7c9b212cff35d9025f00d064bbd32c, 0xc0762913433e77cbbf89d707114a45004adcad14405817131b8558554d875b9, -0x2d45d7e38be8bbff110bfeb7780a28150f8971fb4918b38bfaad59362b9fcee);
  (0x4bf07d3b0d1a378bf2e3509ead9cc84ae162c03d6adca13836ede5bd3813cbc7, 0x7237e6190468c5ed41fea8ffc59a9a6c0016c2e5a456e51cc5498c0eb33cf936, 0xffc84cc66d4c25931f5d1b4f7cbf37449953a0f7f80d05b8cd5a9bbc847e1d98, -0x7afe4aee96ce50fca9cc1f21b16cc1cf92d11863c713b97cf79f4840339e8f9a, 0x1686cb4ba5a8a61ecbb88d7b9fe75d3e7ec1a59d0ac78fbf16f35316a85c2bd7, 0x63e69a2762620cc3772c73f78c92c1f0f29eb00bae2159b4e254eaa90ad9ad);
  (0xc01fcb1f43ab0041136bb90a6a750be9ae6d2d48eba8f9d3e3134c2b0b696ee, 0x6bdc3a06c3ab473c5f1e6143ed80a136120307fe1b7e9bab01bb2d50ef8704a3, 0xa3b7c4bc4cb36ffb42327ca3d42e82b6b81358f6a83bd37c8b859bdd39675b50, 0x3695b74295f6abe251e2832dee1fb888f41b02869e52f5e923f83f1d439ef9, 0x902fb4a1b83d7cee5498829162dd14e30e846176067a16b855ea9b262d3385, 0x4c58b32fefe82c970e14c5607849a3496edf287246392f44649be58a427742);
  (0x4eb8d13696f6e1626b56b900af8cb34f0ca07a270a373c8b791fce2dfe505514, 0xead492c27082669dd937ce3cd0282a58d3302658abe8d0a3cc1e27f3528c0da8, 0xf0e120e3333e8d81a34edeba609f1094412cb645c0adf9ec15c20232e4583136, -0x23a5223ae1c47775b3c49777f6b0cafb4828f7208d3d70e4c3e360074d04f91b, 0x183524eaad71a25f1c132c6483fd5470ffde86c3615a852ec5b45dfdbd0d8822, -0x270b554cc941ac4ca92c92db3ce63358fd6b97ed904d2e962166238836eda56a);
  (0x130f9ef7cc219c1a0f52ef72283b98fd72bc21fc96a079bf8ab442e1dfd45931, 0xe54ef9b8f6a95bc2536faa128c221cfffe2397bea5fe6b1c9f11a184c71d61d3, 0xa61a0995f2d62c45304353afa150bab2b64edb8a8a58a46a7f4e0b349fed1e4f, -0x8a4572227f2319c43a029c4f845d7b38e11aed9a316a4aedbba2e9d9ba9a2eb, 0x16b528ccc0db8f131a515aa19486df89f8717169d56302ba93773ec3e54ee40, 0x69409d785af068b361408d96ececae682caa5fd7fc884b40292b80f6e51140);
  (0x13f21fd74656b45dcafb108f93de317140e197f853ea779f4b974310653a8330, 0xb4c756a2a0f547bdd354776937872ac94388684c6ae9eabc3463c37a3c3056c5, 0xc4e9376891de5799255cbf77bd395dd6147a1684aad9b5c55f861feeb0bc4faf, -0x24e51196e11efd58d1c220d3d5405cb91e2f2c35d58d772658ea3c344ac82d25b, 0x18dd5ba2b67b2c3261a3bd55838d7f24ae428616cc4060f54770f2b058e6455, 0x3c7f75c0f78943415c913eb44e0106fd6ad79c27f3dff5b744b75da2d7b2422);
  (0x4405b997a47e55ee1ba08bad9642f7d9df5367467af50015fc9a49ef00d335db, 0xc7a2a5eb5ff6ae36c60be321ec71a70fc32d87b241b66757ab9396906e8dcd84, 0xc36eaade6b09f6727114357ca68fcfb1c4a352324ae23ed7c5bc1a6aff0e87b, -0x107a5fb87b399034872eaedf3c498ee23edad6b0084d605e976e8f2c2f109615, 0x12130ab955dc1027e8e7fdbe1481fd0d76fe2d360cffa0e01d80ba21a77f32ea, -0x502ad0386ed3d3fc921090aedfa44679829ee0a3715021fe84830cc9e5b55cf);
  (0xba0ad5452f564a5003a70c9b1cd5a722fd8a4ff4110db95f2293f9592bbbe235, 0xc749274a103da17303a79fd1f504b17122ffd70293762f29483c5b64db82812b, 0x52f74ba70d6f925bd3c35f10d365309a239eb923c9037a84917927e35c05d625, -0x1c149fa36046db44956c9c9a117c53e9dadb1e410be2609627ff335f8305aa2c2, 0x8733be5de3dd4a32387d08f3b9b7c725eed1602d61965a105e870f12b7b5eb46, 0x4109cab4c575ba51c8fe2c1538485a371ab490c20db4e8a552cd03f59a718d);
  (0x7d019c3e63c41e50a345c08cef7d73922465a348ce16d1abfe6c4a71160a3a9b, 0xc11446e68f3e0983190054ee04b286668b78dd3cb6011c397e14b36b625da5e5, 0x802985e2cfc6569c2ec495a46207793f0ca56cef24fdc473fed97d4445dda88d, -0x2751b50cee1fbd7285704891caa09b3e546c049a3017ec681e64a5ebfc003ba1, 0x3d0a9297854665ee7ae5a05208c85f6377c46c1f04b8b4b00cdba032ff1d0963, 0x307db8f32567ce329d958c4a5774d68c22d2baa94abf685c792192ea4f544b0);
  (0xbddb67938c3251b2272e93a7254d41b1d386f0d0c1faca027481f1cbfdbae7c7, 0x314cc858ca512e66471a77311fc5f7831736464a705209148006618e0d73066c, 0xf1307601ab88c69da4bb6599c3eb6fedb2ef411f822c9f10e47ace583c0c0061, -0xf6c5bf1744480ab24fb82612fa3de3d5aac5b14968125ae67e5dee69a7ede115, 0x8ccdb2fa3d5c3a93a0f81114c5e06f9f2764dd0861cc8138f2ee97e5c544c0bb, 0x6aa182440fe0661585ed135f597aa3bcebc5705561f4fd71b0c6856bca1d63e1);
  (0x75397719103a679d913909d529a69e3ce251ff5a4bf2e71046f04bad03b52788, 0xf30594cd4e52f6d06de1a21c237bbaaa0ca3acedebdb45700db64b8b9dd84293, 0x26e56ce33f7517114b153feaf6fb4d36cd2a9a16223b9a19c4e4a29062ca2268, 0x1fcee8086ae635529bdab741d723667c3a7b763ef2c4586bcdd50a3afa96c732, 0x35ad93c32966ec42a3ace2736cc40c1bdde69230917f18ec2354eed56c07efdb, -0x58b4f1b6a4a414ca0cd4b23e5ecd7aa9e3828e0233359dfe04de24cf1c2fb741);
  (0x565fae9a8c4258bd09579d4319622cc81d65f0e5e4f6cae744f59a908abd3df4, 0xea66f1918e34003217a29dd4f3addc9027c36b02559f8888ef17301ef8390542, 0xc5aff4db34335f0a53432711ea8b378a5757b8a9d3c6a793c6019ea297f9a79a, -0x299db915865a6fc9d4052f26ab8469b2a00d2f0ff64d0ae06c166fc64fe6af13b, 0x1d246d12e40720d41be02b12c67e5f61567cc8677ac9aaa5f2dd783772117428, 0x2e88395acd07e04fbff31a4fe749949294b10c704bbcbe3a8ecd2f96e0855b2);
  (0xeb7f55b47215fe81e751fe8f5f1d754f174831e050675ba850c0a2a8256b91df, 0xe5061ff876701d5543098daad5337d815fea415419e6d1b1abca8e349da5244b, 0x314a2f02f9d1e776ff79ebb62393bd506d2caf60dfaa933f5120803324543b62, -0x6a607139a42ce5f6951a9dce4de06820e9bd3f83dd2b02d8f056cdf6b1208189, 0xd8a306af6f2ee608405bcf8ef994a67f18debadd5c509218e0d23a1763e2578e, 0x4f28d3c73d463972b84978fcd5fa0ab086a1f33add5cef12d34f7d7129b12ed);
  (0xdfed405a255a61db6f04bf1ae223e98bf5df6d0322dd7eece36415b9a159a4b9, 0x46832ff171fae15185383b24dec3871bc659635025bf5939d7fec426e4ecaa47, 0xfca331b10b5563a50aa41a33de0adf0f99b218552594cf955afd95c758457b97, -0x2107145fe0dcdb45b22ceed072a2bce3009cfe6f610e06e7cd25f46dfa1c97d87, 0xc3df31fd4429d240f5a399b97e6e8c2711caf7d4c4ba53d8b96542c6729551d4, 0x8aa6f626e08c46b593d85279292344f053c68e1c77b7862f8ab8358fa814102b);
  (0x4d2a4074b1a2db51f86f6ade69d85658d20ef46823fe0c6eeb9fd4a5e9effacb, 0x5488434793118fedec7b4fe59b5b9efe590aa440d83580d6ab85db33d4c0c567, 0x27f7e8d47431cbd0e09905d37fc4dff55c3781fd553b9a46a4c36eea2708103, 0xe8b58397ae79d73d7fb3c7eb06fea41685ab7d8b490892f7f06e4c129eb4e2d, 0x174271bf6960cf622adae43b603cc5829098a5ab10612c418d3a17f80831c165, -0x439d72dbcf1f921f8c8c75b8c74ba908ab34aab9ef29ec9175d626c6d3a267a);
  (0xafeb55f90ab8ba185b48d160a85bb56fed5b14c29d575403032438ccf37ae6d6, 0x13a869edb70c1415434bb9440eec64efc8500f31ebaaef15fe111efc6e66f4c6, 0x9bada9ec7bd764554770fc29022c841722e7ebc7abd95c400d9c10d71b46910d, -0x504e37468da8d4de5c80229015ab25701ec36b9e0fdc98b73485632c388c068f, 0x78e397e170c190f77ce649c86dc04842bb1091b3498f83c519275bed6b039750, 0x2c94a8da628185b12a3747e879f76df3b561126644339296c6903c208722b306);
  (0x359c572c2af030692db6ec82a0d1e9570d248e88cdeec3dc30f1ea852ed99161, 0x2cab32cfc4bc3b968d91a2e9dc556fbd5b501f4674359de08ac3aeb80e4be72d, 0x3b1b43b761a161c10c0f09da665d824ca3c9c94d8186ea5ca0f1edd357392a06, 0x14c1286261826feb368268988afb9240927dca8a2fbf9d7c0bd3a38c099cacee, 0xb3a1b92a54ad59497c94755b2ca5999e32a17d374ae5582056aeb6093f34b28, -0x53cd9cd79871553454f55bf0077519878ba4a1bd80f7f0dd2bac90995c32a9a);
  (0x6caa472aaa2ed09c2f982ef4b1b244c4b062007f22d33ec15744178970323284, 0xc1a9250fb23ed16e4fa82ef16dcdb190c3f75baf9cd48f4ebad32ff015509d76, 0xf2312a4c7d2975c155b9d436b27a0a3be0801991edd39f36d2015abab2bd085c, 0x1acbbe58772f8ceeac8cae430873f185d82121825272549559a51d2054eaf235, 0x2e201d4e980a37b317cce901ec3af353e7deb6bb01a23c3a842800d052b11840, -0x3f3e3c41198c2b33ec9ff8c2ed76942c33977d55398dd0c62f998fde6e1dca86);
  (0x98382935cd5cc89bbd548477007e7a063ee5542ad179533c62be8cba74473eb1, 0xff5f62ef4fac521c6f10750f442143148b18e65a87ec271cf7dca7b51eca7848, 0x5d956a288673c67b119e3bd7d7059c06f417ad95ce6ea53b68d91191e1597eb4, -0x2c88b5aa4b22e27e820aeacd671aff11b86e40eac531408ff2194bcd2b7fce33, 0x5a82bd41f20a4de71a61e052f6708724a39033c36f21295f5b833e08733486bd, -0x24b1be8976886143e2c3a7b5d97e94eecf1d80a541463929322d95fcbf1c7bc2);
  (0x7993224db7767a737aef31144fa25a3efd737fa2cc18cf0242ffe5b95080dce5, 0x9aeb2b8bf1f7801f041f4769776b26632f06c9c0fd5345b3fbf0da7d626c24fe, 0xb37c5b056eff2afb6dbf29d0290c72115a13fd863f4f1634e131592b1ad43194, -0x2a35aaee341dcdad59619aa896d6c138e0f4e918c0c07980765c7de2281cfc8b8, 0x39bc6afde1476e25241c3b1d44516b1272399bfbd461567273f590f1369aa18b, 0x2fb4aa5fb3a6b2a0d1f82665447abf6de02b776eca9133d13aedfa398a52646a);
  (0x9a2e827c6e9c66471c5c7ba3a054827d97344756e6611363f4f881ff563d7f5d, 0xa44894fd4bfd422968b833b656de49f4a3b6ef4ed075f068f93c95a26027050b, 0xe8fd69d349ea5544a0fef214a57a5bfa40f06d43c1d52d48985599513f9bbf13, -0x15c65be196d4c9de715e36a6c4b0dc3e2a0b1da4d942496cf7bbaac73678cd23, 0x5cdbfd70dc4e88147edb8b209ec40a09599f470ea091d66fc7fc81617d934f9a, -0x5a3e4fd1f5c225a6d6bac90375aee85e8884cd91689a5d978175ab6c9565060);
  (0xc6e0630aae2cfb3f4751a2e6b9b48e9e66e3927cc9458b79ee356f00ffb3a211, 0x9f6f304e9921d736ea8e4e740c96fd2f0bf77fb97e666e2cb4899ed177d926c1, 0x44d5b1fd433d59e26757c69730c2a159d61c00c93dd92efbf7413fc0de6202f, 0x2db935096d20a0d0f14391265c1c6abfde6c45b76379acac4746606ea4b72f5b, 0x9a7fdde1fe6fa6866d66d6660ab0193f7059512d97603b6f86039fab568c17ca, 0x3c463f77cec4f415cd987ca9975f1055713c9265d070cf8a431cbbbbb29a5a8);
  (0xcb0231cedd98a02321c78688ec2624a4f051f4fa6f44fd6b3c43f77f04de0d07, 0x1a8d109cb43afaf2f7fd6e51f788a0de52630171c2f956b659b78dcd952e7859, 0x83ff04abe64de063add15abaf09e070ffdad657ce4e1fb9e7c0ce1e8e523d5c1, -0x20406536584aa26f773d28fd0e67cde1b8fc7b7b6c29c7beb83e04b87843b5cd, 0xa0fc7b02e45c5c5806df016f357ba7bd6f34acc1739a17ba00822055a349ac31, 0x696072c0f8f3d72cf04c7845b9820327b3be17f0f5d2e4717f4849656e8ff4e8);
  (0xc09504a54f94fb93de433a2d21349d49d64a60360de4e9aa65c49c7376b6bc39, 0x18d14807db0c7aa60f6d75c2bb739188ae8998117db0b6dbed97d5008178361e, 0x7e8732fe4c46e70962e3089909261f790832f07dd8c376340fb20e4a566567af, 0xbe5553565395e40425d391522a787150f6f8687f4b5eea41b3501b5a2f0ec45f, 0x90dfddb65fe3b206fe2bc70d2433c148f9290958c4dc324a74b98890a94294a1, 0x14dd8c36f39d8c9133b8ec9dfcde00065370d0ed3eb220024ff2bc9f692a5f3);
  (0x677f4ca0a1e7cbbacf49db11c2041d83d464f8c84b025d96936f1b2d09ac7b0f, 0xc50317efdfbafb9c859fe8d404f0b3b0c53d506e549922fc1562cf52be5b5776, 0x1357c2651fb9e109d30e27496ecef6abae13b36a9cef2da6c8ce155a7469faed, 0x25fb387874067da9da522437d76a13ef44715754a8c8b7ce6a13a9a254972728, 0x29d7aef66098eed8df420e48e220fb213a3b910226fd0dc2b1e7ccb2eed28ee7, -0x459daae753be98988bf6abfa7d3a9dc421656d5a49033aee82329450be7669c4);
  (0xe82c7dabea8613bd913c22b6f00cb22f27f6746f757749d5fc48c08580b72cae, 0xc83ddd76e1bf5bedf813a3ecb1e8527a9268d3d6c3b88d2f01bc0c17a51ac3a5, 0x65c7d487d9ee969be695463ffa21a45270f649b6227b4a87a935fc517b86e783, -0x1a3c37f2275cd0bb0975763eada38452639fec2147fadad0648bf3fef0d9f6d00, 0xd290ab8309dcf85875a5ccfb7bb2387e53e30866f022d54b1f961ff5409323f3, -0x2edd2b22ab296c567119cfc091c93a3384d0e6c19775a922a976327c06c23e2);
  (0x5f9102ec19c29ebf9a89a6003fa875b3fb18227f71360b7dd69efdd42433ac86, 0x71341f0c21d7a2a8c4333a5bdb75308239bddebada633f3e6e493e6380920717, 0x8082fecb1bc7cba7ad5df0b75295c23223c241b153b008ea483a30b0becfcb78, -0x1e6a8439ab6525fcdf72d748b767c0aed00f56e39e0454ac09cf7366c6bb63f6, 0x23acf24f8a9c2a7095a67fc7b8ef62da9c6b57eeb0d16b7f88d989c2e8ae0b42, 0x207deb2cd0e82edd397cab77fec0cc356c6b45dc095afa2496812ac4de1f0819);
  (0x8ab3da47bf9751e01897ac0f81dc0eb08016915e8679a9de4e822b02ef1355ff, 0xef45fbcaadd633b2eae300de161aa90d843a33fd3ca8388440bcf25cbf7f6ae7, 0xeaed943c95da09df5e9a0a3b420a59699513175b0eb18a4b73ba483652df5d5c, -0xaeb5d0596c34408a642a4e502c97e986ef6ed42530167764388d2682171c763, 0x4b2665b05503584ba6aa2369601b9cbf2a3d09d7f25d5555fe1de7a731e5f3ec, -0x444e32fa9bfb71cbdf7dfd0749c80371f6c774b6ddef60b7831fa5282318a004);
  (0x67693b534159f50c4c45435bdd93f704a9ae829d47f638f6856cfa7a1087ad03, 0x77fdd45528b0b3148e71800a950e7f66da3769f30f4cc5d2e13b923e628a00eb, 0x9e4b79b7d20accd1c9f139753f6776b6bb81a14871c41365fcf5c6ec1b6f5d65, -0x30adfc984b8051d9352eb831c7f869489a25dc0cfba23db37cd16be7ffdbaf66, 0x29c5d8feb6a17a2dd16dac331b7798cbc5cbe91569cb1a266cc94ae1f97d4f51, 0x302f101ce3b5d0339f4b9b3655f5eaa2323fc0f86c0b6942360053147a86bf73);
  (0xb83ecd0c02bee8db005add634863916c7d939ad30f2e138545189a16d9e0ffe8, 0x75314d0716d223b98ea44e98d38e03ae92b3587e1a2385870d176a968c77f520, 0x36ca77b3b78fc8cc06e14bbc07f788c1d436b2120131762e6ed2bdb9370eda7a, 0x3b2043dd4996c6c99ce05330a332668d09a1f8c050e34af37481536fca6927a5, 0x849a56293a0000299d72e75d681f92d9c70c3922aa645ebdee0c630b26230eca, 0x203b106cbb7d64ef6cc84f259d3cc45824d286e36fd059d631c3850785a1dd9);
  (0xf7536a65482f9a5a8697afb5523d1c537f8e1271a0efab5ff83c85ca7719c4a, 0x895f2a52ed4b99de04279ec5d8bb11ae199e3a03f4dc0dec673e764c07a756df, 0xc5f38bc443207d2fa74d8848b8f432fd1590b9f3c01f34ffcb72880c398678e4, 0x184b08191c09161573292a5e355d075e43004eb0b7d88025ad9095b42bfcf7, 0xeef2127d9b30b2923c298dfc9b7bd5f21942d4b0daefba2c4d6aebe6020cff, -0x137ed3c5e4f016ec13246ceb734b4af2a009484487d7a54459cea58fbea7f94);
  (0x9b3947241fe0430222f7950cd2bd9f55b21e7cb5f139d22bef3f74cbf817c905, 0x555382a39417b99f8429fc14152c5926bc4ad81126690911a4d8f768edff2721, 0xda68682afcef857acb14e0f9ae6afaf80a299bd92348184a7bfab2ee20d34b67, 0x12e883b1446e299cbcd7ee45180bd75efc215cd8c6e4a37cea73586ef829dfe5, 0x5e1e68f68074d1c9cd817d6ceaf5c593bf4f7b3efbeca83abf21639065c29cba, 0x1f8eb39614ad7cd925375a58b912efe1e2e479fdde10b1c183fd7c15042d42ab);
  (0xff613bcf28d6486574c5d60ede50621f654fb9ecb5f70c9e627caf887a1ae26a, 0x6f0c466d34d5beaa3d6188d10575877aaf4ef701de6cb30b17cc82da40f1dab5, 0x87832125ba182e88fe64002602a742a691071979e8ca7e499fdf2037da167f81, 0x215b5fe004c7f64822dd824e5eb4bcbdfbdcef983dae0e61b51d63d87ab7687a, 0xfec2da151450fb12d1f02040b159ea75e6b2d471c544e25240d2bf322b4e6268, -0x19a8d00a6c235d6bb0b9ac63d1af28119f02286eb03a3d1ed7361ca71cb61230);
  (0x2783d2adde51da2343e40c273a9e02141ae6b820877a8a83698015c77a702106, 0x627bce8b01c06ee20b85a40c28a9838ae623167b29b33319a54394f5c368e754, 0x5593097895e1a2e6543c62f1fc9cc3c8752581b725ef31bcaaf57403b1a24d13, -0x66ad6da3840009f1a9946cc7b6b54a259e1fcfc8e3a870c5e40287c549e5e91f, 0x6196e1245102f10845bb6a5381b7b687f0a46d1d7a8fc837628179ff8048fe6, 0x1f07a87d96a41342bedcf8ec8676e16e09b9365ce7b8071ffe9dcbee13f2a32);
  (0xde799df296242fd9d854142ac729bd40d3acf0a3c0c74d5255204fd389fe41f, 0x4734b51071c1370568e89eb80a54c2c90cef745f37b703791e277ff8e9eb0710, 0xe6cfd037d8ae7c64515980dee0dcb573924bfade2b1379757003a153d0b63ef6, 0x119fe984910e2aa79255a8f6d3b55bb02bce4d0897694e425f78ab31a4e6f02, 0xc15727b76d2c233ba64a6ada294858f32b511a5cdf19aa6ba9dfb08874eaf7, 0x17b49d87c7a326450a6cfc0f6b4140027da7d123d9fc8c05244337c9babdc73);
  (0x119757b29f689bd4c242f4109a1f9cc1d0de0867fd276942381ae55fffef726, 0x4c370d0d190a395c26a4fbc0d021517995fcd26467c03d62f5dbaaf4d3cab853, 0x835f65a0393c2ef112dca2574136b490d36d493dbc352f6a85b3947c98f529ce, -0x396f4dcc633cfd8a5954f5ce1b63c268c74aeec1f4157cee0350811fbf4c47f8, 0x135731e4beed71541707b9f0c150996cf3739b7ff0c5048b3b83ee42fe5f1, -0x581df0f7c9106483e0c1c2aaca3e9498c2dfd22a204abc1916569718f1a36);
  (0x9593153a305ff1a53b64419070136043d90db0fedd366289df2b7f128effb42b, 0xb610ce7c7a136f11b61e5a4efe746c17f89b6cbb95c0e904487f83094318df3d, 0x98ecf0dea28f86e7718d0038b097430427eaf49aa20fab7bd65aed2999cb06ab, 0x18dc43635ac61648c7a011039f2bb9dd22a21744c99b6d0e4b057332f12b0340, 0x57648b371ee5d6a38d27a2a5fd86dd9d21e694d0aac94e69f6175bc6921d6643, -0x3dd88e66d2a38abc3cc9fe01f072fcf11c71406d8516db97d2c74ed3fd503907);
  (0x29e2150de926244df6128a5b3cad728e5cb292e7dc0998b99c55318b8688566a, 0x627ea73767344d10a5205da7cd2e2ebc5b272fa46e954ca514e9f0735bd62ea9, 0x4bcbaf832273a68a8620cb06023e73bb348eb5a15d7e668c1156d5fe9a2e1280, -0x15269b37243c383f58eddc6db65666a61791327f42f9fd4f80d8b78f01ed5453f, 0x6da3267a2f927fad6a3571c41548876d64d4f33eaed806c4f743ba2c2425581, 0xdac363042c187c6270666d04c8e2d315da14af748f68131045aaec03eaea7dd);
  (0xdfe5d7233f8ddb6bb53d306e7b44a6dab12c9d3da85b30b40145cd6a62d5a205, 0xa5a90c15be619542e26d83c7ea6de569b536479efc0cb4bb9ef3c319dad38f24, 0x6bb860622949ab14644e43eaf7d7c8c7aabad2dde5573b2d8685b474aac358d1, 0x11ba46dce66e2231878a1745c672b77290c440adc4d6b91e85147ef112f23172, 0xc3d23b2a029511aaeb92e453ea6a2d6cee804ac08ff565c45fbfaf8d337ab926, -0x3abe3b3bc30399c017a3a7eaba4df39ce64a2ff1e1373eb681f5f564fd8dfdb8);
  (0xf320af1e613cafaf3133057ae1ec7b23ecbd159ec8b94eda53012ac41e3e73d0, 0x97bbf90ac8affcf860465c6dafd43dfd03239b429b205978c781793c1a5e00e2, 0xac0af026bf7b88984cb15bc37770d0eb00953795763c30b5733d78ec50b2f0d9, -0x74fe832cde55d4dab813540d8fa9848cfd73219df9d082c95fe03d68a853a990, 0xe6e7109febfc113e6a8ce701870b6dce2521d497ebf134ea368f65c6f567fe56, 0xd39d03c7fad24552a31c0e612884e4b6dbfc8533d0e69b6d3a4a80fd6b95e76);
  (0xf9389074849906d377690abaa0fb637b67afb5afcddf8987253bd42885347108, 0xd728ca6f6d6557eb93e52a82bc864c94f8f60c994f5ecbef2411d886dff991f6, 0x8f35e5a9cae0e68bba1e19e634b9baa1de6382052da2c71b730c1777adf898d7, -0x2018d82fa1c9a5fefcac2b303329fe7a502484b86750656084d7d3de0669c506, 0xf29f15822e6efc6ef1d8d5515e2acaa5c231f20b92da24218f0ecb361ef47d42, -0x3dbedb42c629f115130145253160ce16792d6c368a59322b9e9697032f6b0250);
  (0x7e1f123e5bbc40cd22b5538fa44ed091f809577afcd1a4b4b20f761996d544f5, 0x41b3c91eddcf2b7035880b904c722579fd9b55c68bff61c776c2b22c1adcd713, 0x383262752783e55b37541353508aa32402f42ac343d82860313e53e59fdc27ea, -0x19164ce0b0a14c257b23e0c238e3b91703481e4382b9be8f1c6e303563b27d626, 0x3e2299baceb45b78a90482eb067b268b4ca81d777946367209fdf8464623defa, 0x49a1ba777169c7e90e5f2135f1822ef3b81cdc7dd2305cfae1c5f32f8106a8fe);
  (0xbf886abc489e612008083b46ed17256dfe983fa775f7f35e2d149a4c1c204920, 0x46b741f82441170b7dcf54dceb07e65823df3dc6d0d9ce2d0da86f1d7f830a4, 0x6cae9147e3a3cbde1d69e965be04871f1f10f03c8a7e6da04d6200241eec8c5, 0x27b3175c29bf6bb9cb81e31a34f9639baa089dc17bf726e26b0ac18d992bb00b, 0x8f4cd7f688e9f3d2e3ab77837b3a148f52027d449a6ef086ed8d60f87940f2e3, 0x2dd99f64b2a7d3869bed8608e63db6127e77d5a9b898a0be1a6af12a4ed096f1);
  (0xdefba65db6c59e2d1354ebfc9c766263b872298cf35a8fc01b155646c600a342, 0xc84909b8b5a7b473655082b1ccd2346318fa086e8193dd4857658b9b19a83807, 0xecd92d105c5c95f83c63e8a252dcb9acbf37ace9813f8ce71d21be7bffbef58, 0xb9aacc6ef42ae1a9c91dfb7d11c0234c1dbaa5390acd7a171e3d3cf30196b64, 0xc2396bea30e0d130f1202917f90f5f4911bc95a01663a3eef0f9cdc5652b7175, -0xaa9ab145ea1d34ebb56fdfed4ad14b4d3e14ebafb8474772f59ebfa06da5cce3);
  (0xe40169d202534038b9d497c01382174a0d252310ef0abdd6bb9055579d00734a, 0xdda78d0099c76936a59dda04e3941c56dfe62eb3b8bd085c9ca3cf26ea395d27, 0x5399ab62a44bca1cd2b8a19f14c29da9fef2c04935d44c9493e9c29485a9516e, -0x489b45f859d52e76b959e8b2f39d95c7ed58315fb4f4384ff25e479f4a5fddf1, 0xcb1284801386413ba6bd6f8c2f50a35757382451bcf08b098adcefc8cdb1da90, -0x13084b1fd605feaf3a4771df391fdf6bf0951249d68d576e424551a459a03486);
  (0x6f92a0df318c8e86e8bd7accb8527e60cd4ce6f0c0519f7f423a69bca81d90c, 0x47c3bf59ba94f9949954bd97c2b489b0b3d49594a9af86d21f91ef5db0bec167, 0xec835b8817eee854ddc69a5ef8220731ed95f68d0d303f2339ffcf31d0937e95, -0x23b3234e55ba8eb718bacf075fa7679419fd6ca17acc2fdf220e2b11d772d01c3, 0x30a07b7d70a428729e55d64fc4f6a84bf09803b36eeac9906316e086e93b1b, 0x4153a047b2ed7f6ba2038a6a482a9d4894325f639d6fceaa6a4032899a610bd);
  (0xc541fbc50631ac1dcda43b61c56d980d3010ec9b93eea34c5181a50ed69eac09, 0xfdfa41076dd171f4daed7b100af2cbcd9d7743955a17050aaf3b334a4ec6315b, 0xc29a92effa41500b695a9df3194c264f919882b8f1177cf2d557e556aa7ae880, 0x2437048daef5977bcb5869eb399bef2bd7fdc188fe5a1f8947794107d53e690d, 0x97fe9e7f0d3189e735bce59de97a86bf4388bde897cc0ad3691d4805f0b224a9, -0x8c66e8d54587c65e9498dd7f74ffcc372f4f687978dc2c2fa20410ac282cc369);
  (0x2825fb76cb7a9c03aba09525116c540fc3c9f40d33b51b43e39ddff668c5cfe8, 0x5dbab1a127291652ebdb7999fa0bc5c096388f3c87f4c55f73b2fadb2e96739e, 0x224580af14b68ec850a89f83cbeca1880fed6af6fd2ec7fed4c5ac2633758c71, -0x2b6dfbe9a16b5637a2f852758613d5a4af4d0bf066eaf2f87e65146eca94a1d4b, 0x64be437c6ef4c54e3647f1cb36dccbbde01755c0c8c0b831350900bb07d04ec, 0x1921b50063170bbba78987e525abd6f214e219ccc1aee038336b5377a4a6d497);
  (0xe9142c39dd2cce41cf931b8c07a21da8b6cce496607cd60087f9a402cd8eae8, 0x1dccece666a33ebece197d6946a950e0ed8c6f4399e54c9a6e11de7c5aee4bf2, 0x7350e088f40763066e67fac56c4e55e3b2832f44ce5140c5af9a917db95343d3, 0x16cb195eedb1dabfffd819007b6b452164952086cb15f96cd98e21e017b6db2, 0xd435ba18454a0f8faa1313bf61f2056afbd54ed7aefcfe7cf546233928188a, 0x3a3471aca8cd358b515231b683ceb13382d7ca93fccb18cffa7c2cb0d30989c);
  (0xb4e9bea97068ac8ad9eff1714783fa5106f717e4795009f226ba1875fb7eadb7, 0xd2fc8a2fcad3abc1ac22b92f71c7679c771d08b29575a36dc13551bf62d4e019, 0x4c732946536adbb552c653a92a27bd6873d1caf2fb39617e55179257c01a1688, 0x98941b9a2ac4e26a18e3c3bee1d30ab11ea28d4cef9e8e6aed295d00e3d23dde, 0x7fd9898ae481c42e52e7cee6d9c49a59f6d9626178a5779a559bfd29e7e897d4, -0x800ae9df04f874ce95d7d7054ef0964d9031a0775aaac64ddceb7c3c9393d23c);
  (0x3706aa73e5165e35b1d66fc61b5179470c1a1049c7c8047dcd2bd343e8b844c0, 0xd41bd394d8e02fc6609d44234dfb4ad9245bda4c85b688b0514d56a0171a453, 0xb0a8e2779fe42b934a5aaeae8c4c9b7d3386c307919da22302439d5d9e2ed31d, -0x13d2a131f1ffe12b57c960f0af3795761d41776347e7821592052e2fd66ede77, 0xbd3dd6a3b5c7a40d1277503543180e3412b41201d76c6c9dad2ddb921c4146e, 0x2a80481152a808f90a959c1e9c032bab156d11731a2e2f774dfabf042f62611b);
  (0x6e47364ff4cb35823960f4a315b8314739c196fbfbd35464b1768d02273cedd6, 0x7951dd2bf727655b26e4c6a76b39f7f35e12345e48a27da7219d05f08eed5055, 0xa367c85e04a0bbad7a810ebe9578169cac4e3dd5d715443759918092d81adbce, 0x962430f5a6dd016924c499e9193760340f9a25fe9d94fa563bdf3711c5656c81, 0x2f81467be23e3ef2519d1be64f43207138a6e8b2d45168d3a2f1093dfcf1c2a9, -0x2e8cfd204839234a9e5391f3d4f9a5ecd2bee53d7b58bad2e247a5ff72ba45d7);
  (0x466b9ac0b033565f8bcf103eb14a503fef7093eedd4a0232f0e1f891a80e5b06, 0x5b3e6709dc029e54e00ab611b048068612a4e42f420eccf8179be3ab84f8505f, 0x5400f5765d7754362136c42b5230d5c21de9bca5cec3747bc4d61d62b39fe4e9, -0xb3f7e7f9444e01152d00ac62dca72c52ab1e080ec8527256eddd354de3830b, 0x135f05dc1afbc32cfe87408f9af363c858ba4dded75927a944c7b68163ee994a, 0x845f69e0c09edf121182aba34efa65ce9b66570f44d28744e21fac73c3570cd);
  (0x33dff4139cc3afaa4b38f34c82d16709eb13a0ffdcbf11068c6e287e649aec12, 0xe1c7944019719796aac0d4eeb1fe976b3d6d700502d3d4938d7544be80f8eb98, 0x62105d4b43dfd3173cf5992c3086f7ec12947f39d6c2b05927013a43953e44f9, -0x3f84e9bdbd980caa24f13cdcf29c0a4f07b3ac6c646b7535328e053b9dec323f, 0xa82ff2af356793f908f8480b74f9401dc2bdd0d3bfd1a64eb166b20730ddb6e, -0x1b4305c53e251b4352c9b56f5ac5408bac3a90d35f4b69a38d62248932b702e4);
  (0x353a59bd7f3f0214cb03ece1d5ce8fcdc92899b11869f85bccf1595d9c3d521d, 0x87d20f7c4f2b0e14bf0f6504aa79e5030ce73e4bd7c98a30e47724b859b98e34, 0xb5ed02724be0a5412510b5df46c8aa3e34eaf8d1f3e0cb3f47f4d4737bf2fb46, -0x1640361da4f99866c15b458cf9edaa88661741e3c58099bec7c1d9efa1a8bef0, 0xb11367540030e287f36b94bff0b5b16d231b092ea1c8b08d0edcefb345b9317, 0x12b455a58f5e7555f0339013a7f94c8dd8f51a32442bb7cfa124a6acb150d1d5);
  (0xb8f3eee981e4893aeaedba00ebe001e711508cdf4bb173a02d27429f20001026, 0x5af40058abd1086d3e1e90a2cb928700d0523e44b43e4ac29a5fa2fb72a55d46, 0xdba5580f2ac573e6cc24685cd868015cb30d9a36441f961291df10efd9cd2461, 0x2eb1bceff7845577b2f663628bcf71e685b22586edc969249a94e4b587664b18, 0x859f8fdf18fc1fa3daa3331436ae442c4c6a524b019d4f24fa9839d836a43876, 0x206a5b895b2f9f44bb815a1ce9facbaf9f3095a0455df86469ae0061115a7b6d);
  (0x78db4df5b050e9af6d5fc57fb595e9771f733d815ece6119cd3f3046ff31d9c4, 0x943f2864133534b84cd2b83f08aaa4d2ab0d4d59b042749f766c9fb7811a8e9e, 0x2aa5db425fe655182ba9fec6d36e5c0f1ee4e1aa045c9b06b81d1b14be635859, 0xd21259bac286c6cb772c799cfcb7fa07dc0c3b41b759c7ea2ef3523931b4be2, 0x390e54f4cf653d5fe991177ab234ebc53ddc74d619f9e019b68aeb4dc7713d06, -0x1b0c4f8331a6efc92c3d5bbbcef8dd4ac18f65622d741bfdfff546f04820db9a);
  (0x9bc7a70aacc1ac8a8a60a9e4ea64ddf37224f3b4670fba13a55bbd8214458eef, 0xe97481333e2be8dfad391b7b4a87c2664623c0709e35017625bb71f5b3f32d4, 0x2cc9f612a452fdc7b574c5e18216aabcb6aee8763f960057fa29bdd7af6822a9, -0xcda3e5d4a59c0f29a918e7bffaa5ab7d1122d5ecbc7d00907f94929da2f9b4de, 0x5ecb5ffc0cca09e0a5c73dc00a117c3f640f7e78b39047276a75ec39ca6c2dd1, 0x5154e1866c29f3d891516f95e5b0411da6685dbfa47fb8fe5260c64d69e24994);
  (0x73d3d5fbff796ff67bf2b54dfa608547ef159f2726acc8057bac2641703c8421, 0x5193ad418711d7c5c7bf98179731e8cdbb888bdb15a516bf71742fc6d71b318e, 0x21b329fd176f4d0f3cf1bf0e037b2e32403c848c18ae8539da8628f3d8c79ff0, 0x2f221ed2267e336b67ebc7b22e1b3c4f2fcc2df08730e7a2552861725ef58d3c, 0x3468018ad7cb8bf50f113f3bf00719d7d73d69abe61d2dad6b4c953bef14c2f9, -0x1e4ecf79250ca7287fcd67393eee0dad3635e4118f2892570eea3a23e29db8d3);
  (0x92a560d8fdf147f1abb778d597929be8e7054f4fb7f1760fe4a9ad0f0d785fef, 0x76178f2a689211d6b5c10919c9fa27317a71b81f3c3c2a913159667115780005, 0xa41c0c2f61216aaca37e028d3e85196da7b8d99b745ab39cd5129d3d0fc88f9c, -0x276074236248a1c8c70b10170202ec3f5ae2b7427686276b7e213d88d946472c, 0x54010d4d7e020578de6a148cfb1a9c9d00375caff577b0bcf89607b9639f5e00, -0x14eacda7d3eb2a7f4e031a34074aa126fb1f93b88d3079a2fe584e2b98719b65);
  (0x94294af7d1ddf5a5c1d2d7663aeb253c9593817a18bd0ab92884c6af390fe769, 0x7d2042b2209c8e35431f784b3849c95ea9ba3946178e3d91afe1037f5b6cfcd6, 0xb124731ebae09a844bef5ccab5abee25b174fe25fa19563a155cefcfa6a73942, 0x639519e709c2fffdb38972d63ec5969ae2c787728e6a35eecbaf7db9c316a6, 0x55bfc557a3fe125b4f93e40bcea31dc3da23951572e52492dd6d89c680238a90, -0x4122a3e8a31308eda1af51a00b6e352529ed902c1d5b51f6832e1001c2544d7);
  (0xd7bc5a3a2f9f2c2e678f77552cb98e42710c1b96b92a11699ae1ea7296ae3085, 0x8557588b30e997b8aee5980ed1359647bc4757bfae1563c4ad4b53983e03cb1e, 0x28bd70914a47e2e510445d610f0fc67b845f600838d1a6808d9d5b6bca3bbae2, 0x7316542cc521111fd4e44c5959b643a093bb2f3c9730fe5d00191c393d8d53e8, 0xb5cdea22614044b45e279031166ea192634e342d537603b66175c172d579ad8f, -0x6ec4eb293c9271d839c2aa0c0b495ff0f02384b2e27b6c0ad000795e8c1f08c);
  (0xf60ac1402b86634086c2ad6c2c5b6668e81e5f0d15945674173f398f219ec2c0, 0x51d6648081c0eccb5ed0de7ee378830401b6cb3532029f0041c6af88efc9c61e, 0x9c2af7c7142ad781af8724795b57ce9e4d644fe7dc0d3cea4522538b4f058bbd, -0xe0290bfd4923a4cef9881a12ba899661b9ade17de20167bd8e6eef04389825d, 0xec78abdafe8b7ef6304803da17d4637ce777ee5992dc51dccad87afc7dcd0b9e, 0x3180146cedb6af058dfe02957c1d87fa997a4014c73cbb6a097e8f1b4c7a1021);
  (0x9f3218d1d655c375989b95d2c59ef566d62b8d142112c292c1e1a0de110b429a, 0x717f85f9bd339764ff1546089883656c5bbddec3709cd9bff4c771e266dc250a, 0x6b5b9e67709ee0dd3f45f88cb1879053323bcf6cb3cee695547d3811f7e0b1c, 0x73be6169a5b279b896d326d2573433de8e4a2a4e62f774537c2861fda7f2c2d8, 0x62ff44a25c9e467c2da39306ae6aa072535f58d6431649ac78987c4242c73dde, -0x13b03de4a4538336d9c55e4b5797d9f658a21532f19aa6431bf73a5df12ad391);
  (0x71042e10ef014fbdc8f075a35720eaaa9fda45d2da5c5a7a4e0cdd2c8299d116, 0x960336c26d41ca2a329762854aafc856387ce31a2960c248bc60b284e07497ff, 0xe04ee669ee5614d98f6d074aee79b9dc1dfeaa8d35c43aa59f83b95db2667a90, 0x25325347eb4afa35bca2d98c7a73035eb6050f36f802cb1700fb9e1cd9c86c5, 0x31e4b0bc6bd0b77341482e337dde6c2b8fa4bcdc772949f5ccadf591d8ccd0f5, -0x101eb9a96cef42be276a6a7cc19d72fbedecb7d77450e5f554dea7c28b9ee33a);
  (0x643917f9e7ffe5227af8c960a1c7588a695fa0184765e78fd9382cf77a288ff, 0xab06e9c2c31fff0020ab5aedafa84ad6a5aaedffe7b7545c79c0a00de2bd012, 0xedd21ae0f762f1ee32310cbe1ab9b560e6f35f895bcc3da4e483f66408c3b036, -0xfcbd318fed3daf2025781df3698af5c92dfbb5b717890813357efe49ee2cc963, 0x273ca776ecc8169c16a4de9799478eb1d96babc13fe4ca910539c039afd0b1, 0x368b68a9f3b1bb542938647587ce76270522412c7280e1a32f94d3118ed120d);
  (0x274585e136a3b865b57ff4b1ac72a7ed6841ba0fb99c7ab674da2e78595816a2, 0xa9146eb03a2e066f540012517111f5edfbd51ae46d4409be549ded49be025a7b, 0xcc2e0238097783e798b5a22a163dd92c91940d75579a911ee4dc315d2b6a0790, 0x1094461d6adac16dc5f7b34ba2468b49b94e5bb9fee433172db037860adcf19f, 0x60641ac10111f57992e1f6748681bf65dd496db256bd65a6ad0a487bcdf9111, -0x184c3fcc5f460a967535b5975bab59a74c7759434c3fbaea75f7f053855e8e38);
  (0xefe83fdb67b02127a0da181615d77aeb22d696d2053561bbca8898570ff99987, 0x71f1f338bd1f57c5b4ba834bfe5a13ddc23bf73aa83943f7037321b0fe16c6e2, 0x6a163068b5ab3ce305f3c976a5e0f1c6a805065b235585802a2102170a8544d6, 0x2fac6e12cfd25662f7236f0028511e44d91c7394cf0b3b24a0303deb6689ca55, 0xe0d379ef7934863757d43318f007eb79e5c765018c7eb02c4a3fed8e916c4a19, 0x33ab36452f40dfe32e3c0f462658018bdb3df50ebe984189f60d4d0069bfef09);
  (0x30eb32fcbe2bd30b87a9726840257321b15b2a3ede0841d5eed97b3a4989cb99, 0xf2d7809b79955675c14712189fe9065cd8571e5750f6cdf9e164eec6cf4abd90, 0x7ce7281d46354b063e5fa08e6c09b5a66336ae7e83dca0514b46ae70d712096d, 0xebbdb419a3e5cabfcd87c2b2ff11ae190907a1d6872f09c22a0e4e8e394abb, 0x9590b356d7d4769dc07b0761af8e1206a3b9b8387c29d8948f98dd0a6813019, -0x18a176e7644e05d3670405ad2b5767e90a2ceef9e196fbf59021354552e73501);
  (0xb10b19c25d0a7a8d59c5374bc2e3c50100e67238cff1f5f89d266c93b6eeb4a, 0x931de8d9ac31efa62ec8d41f764bc5094978d72c32b43b8255eeb8f87c21b49f, 0xb57de135163af600de3132c126d45ee3f4b854d8d136c25cf2c6623e73dea395, -0x2a84846061b18123bc9e04f181134cf3a54b49fd6cc84d3e933f35217a96286fc, 0x7a705a19fdf4061b2fea64a698a5a614238f84b072fd6aca6c83e0c5264365, 0x423378885196d27bebde1afd8ea976c5052c20a5be4e75b5113ae6bcfff11a8);
  (0xd85a485a64702ec3ec737f383c9843c1878176adfb5697709f5144949c2649d3, 0x3536e913cd12150f7ebd6985d8123759e72db4d667c1c757696f31e4123b8ed3, 0xf449f237be5622a9a6e06ae4738d72914c2ca1bc81bf70f32566f16f56ed0238, -0x17f62dc8c066fc686eeca7fd92db3084242430a5a40a1bfbf6968be5000e25e5, 0xb6d879ef7d7ee635615c14599744c26636e22c3f2fcbbf14bf1381a10c4e9d91, 0x4f5c058effd04613f59082cee7f6a117325b9df1187196de310e4c3028b83097);
  (0xf9b8b8c3e5d3901b2b40cfe74fa7f2dda0c17c6c892baeeef2a9224e38d3cf52, 0xc0f1d45e35443dd00b4eab05b595a5b39f3c1c26fe9e30523d6816561dded9ac, 0xc68790be926f120e94d4728af547afec8ffeebf643222fcc60f8cd800c0865ae, 0x1bb690b40b9713686cbadbf0d8206a42d47e69ffbd348c8e4055f245a50e497e5, 0xf398dcb7340a1ebc0efb07d35e5a491bda8705e25b46c2c2b311bc53be36b072, -0x884da20dc2c4107374d2f1cbac3d8cfc9408ed39b8ad048d5b13e37a9ecdd668);
  (0xf0aeea4f8f94512c6d787ee427269304092ee14c0ee30b7ffca49a4c3be629b9, 0x593a27f630b725bcae7229e153ad177cb60744571fbd68410c8724a719e3322e, 0x96c087ac316376741c1ab55031e04b97df48a5684812ecbfcfc45a01eff44665, -0x45be01057abff18d2af16d6c4f132707c1f3c474da3d042b7e00c0b5e26b8767, 0xe2486ed887d2d106b81d17e1b74d4a8ce4e65cec57f9d28b28b2e33418e860f1, 0x61830f66d268571bc7e9fb0d328a5ccdb0f61059dbc582265c75c52aa323023b);
  (0x9d751e9cdb9d6fcf7625215b1d1ca28beb22039027949805ac5a9c8810357686, 0x59a38b0537b9bb8393ea06f4162bbf7d55d4b904f8c61a9250a960df5c9850cc, 0x1c21936437470bb742d79547921c6b15037fd9f50ec17eb93df4fcdcea34bb36, 0x5c259f7526129d1f3ecfd5774d7bec83b10edfa34e5c1f9a5dde30f1644da0f0, 0x60d8dd216468fca1f5072b82397fbe9c256d75ae874b2898bd76814e0a909dfc, -0x40d1f717595291a453b94e30cc6fc3479cd3d98e0d3e3ea10b9f1caf08298f);
  (0x6c6a3e97ed67fb901970d9a73a70eda1b9c2ac615da12e48261b12b2753a599a, 0xe8f97955dbe2680c2185382b381853b44cc09a0d67bdef9ff8be2c89957b3ba2, 0x1e03074d84690d305bb0e1ec8ad8d007d0d374b9093280310c19d530aa568020, 0xc559ef958099afdcde2cfcafb4fb6ed40c76ad88a5940146852690ec5ead71b, 0x2de9d0e8156e4786337a8b6f389cc069d06548c345317133b48c66c39c96c290, -0x3cb3bd2a92f9010133b8580069c720ead8266517d40562d49299008aa950ef92);
  (0x21d143b37abc91b796ca2e6df1996c7bfe0b1638c64f157659acf552f92d2fad, 0x9deb3b3b5811ed9393a687a32fabf0715428291a3e6083d0cd6b746c5295f039, 0xdfb34dd33ad6eaeeff47fb80a71b592af472a44109fef9c0e95a0ca6035ff4ec, -0x2742184670fabf8cd45584045948ff2cbe62f28c08d7c8a49594aa2bda487ad4c, 0x4779e83e29a758ad5767b8c2f282e603d311c9a3eace158175774eaf5340c6c, 0x9ea307b77d5ecce6463e74e2bcec9d34aa9c1c9d2f467ff1757578ddad8b4a9);
  (0x4931c1f1f091f4dbc5eedbae49b182907b9c9bfa92703945afebdfce2d5050b0, 0x5a6ec8cf540d2dcf31b5b1e28cf1aa839c95a72b341a4ea4910ffce8cc663f6c, 0x7be61a6bd374dbf4ed8ab9342080000862591f34092f5b421f07cb0c8b45e05f, -0xb31e7b33d90eef0a0aa7916f806625162945f437b126fff5097c159c5388be3, 0x14ed6a47ccc006e7fb186349afff9e261b9240c6847fdcf1becd271ba6084975, 0x134b9a934da86b9db1354e2135730db5499d796486e66f87c47624055fd0c965);
  (0xfed2c0d31f53afda94d069e7a87c63d9cea634f81e1058f7654535703f1b763f, 0xe680c434f2c826a7d72a7a9bd1641f9d7f12d7f71c5f4d298136d8c064732d1e, 0x6cd1e5faded04f473c026f40b8d482663318fb4fa28feb629b4ddb85077c39c7, 0x96d25d2def6886a0247bc1d31406bc600160f0e76c34fe0f980141d8cb340b92, 0xfda6e423ddc6d35c717ad991d164ddb51dd788e2793e6e85f9a83374df0b79cb, -0x8b6d27b00d5c1b92d861444d782657c7dfb112cf78283dd04d78e96483f0b3f4);
  (0xf8d52f18dbfb4bfc2d938f421f1ab4d69ccb22a8c8e99649135d1d968f753ce7, 0x25c9d8dd44895d35f2026cb16fcc08b57b6a773f33402fb47905f4db59470199, 0x703d3a9967b14336496f50e017bd5e01e7fce3eef08cb74e922f1d08c7b9c719, -0x6c9c48a6b2ffcec099d2b051603b6bcf053e65016446dbf2e9280758904fd300, 0xf1ddbcc7923f16954bfe7fd0c79a3637d91f0991c72ad87f310387dc4b7d2314, 0xbb51afa30cb59e79fcfa680dd6687baaaab462b1d2befc855614a3a856253463);
  (0x1fcc7b2d3404fd5dc5c9651bc20f30d541660cc20f9dbe566ce85a9f516dd7b2, 0x17f1c978f590d12c16f50a771f6a2cf99a30abad3edce2cb7cc9d81bf62c7e51, 0xbf4b73ee383caba611deff07b0dd1e1f33d0aeb07b82d4c23f3450350c4a8dea, 0xb263a465a1b0d98f371c8f43253c379fba11a0d4bfead2f2fdcd0541bd5f731, 0x3f329297de89548a3253583eb3da8ee1fb021628dc732ff67490ad7a24d7501, 0x1b838b2aaaf15cc4d5c214ecdf8f74d13d0286f7886becee673f5a7e34daacd);
  (0x23d08f812e237894fbf9d8a6f6c2fc797a441c49d167a9493f5b9bef6067a0c2, 0xf7e4372e54851257241f19f6d62b8d0082f15225154c2ea251bdaed5d630e2a5, 0xd20f87add2de5624c6acd406910d18179d7054c0deda4fb43cbc7a0ddc8703b, 0xd43efe1fa36f73f97c532921718aee3c105b04eee00b8980f62164cf9f82a95, 0x502b126d4fa3f57d7c6832484b7e0f1d41defff11870250fab48f46dcf1c268, -0x1f5497825c26bb24ae20e7b35cc1d57b379761db5dca5f95c9238d3e969b558d);
  (0x486dd6d3f42e3d5535a6ebb225db9bbdc3ecf0363f864a5848254d2a2b6114c, 0xdac6a27abae8ce132dfaf66712d35908f2269aac7db431af709bc6cfb29c6f46, 0xc1b024254bbf3c91bf802cde6fdbaf167130707f918ddab09809f1b95598a3f9, -0x2cfa7accb1f6f08fdb6e0e9d81a04f2501bf0776c05fe192b419f253e08dc2e43, 0x147df7f7de1efd99e4695226f5cd54c98cd6b85057a3968d148c5fe2247a00, 0x83ccfd9a92181320f10dd50f645796c89946ee9686eb47413fbab711babb00);
  (0xfafa40d733cc05ca953d64edc5e89eacc5e75e3f2da4f766152605adf791bd53, 0x5ec9a2f4a6c95c735f514bff46d8ecd3cc764e5f6eb596f05c588c778139054a, 0x34a074ba793455582e4e85599acb406b1991077cd12066451fd413abdd810001, -0x620cb5583bc2248b39cb24b92825de2efd5e8ec86d575157fa6bdffbbb16cae6, 0xf60dbb4705e7f499093956d6d8fd24cb2a5bf11860c89a18bb155b42a6e5d6f3, 0x798e4601f308b19f2c736ac08ac0760e847d6d95fc6c188c322a5a12f116fc3a);
  (0x967c6e1b21315a5500f318ef78c0ee36aa572e0a7947b32cf4cc0d2b908583be, 0x1224a2357b38eb8c00667be92805b2bad473e1c5020c7bd81cbed5cee21b2163, 0xe49498461e0a086e4d1a65dd6871951cc8744c9427406a6337abc8d95770b78e, -0x2b6ae5f63cafb81a40550c43b7b38e87e98b068291ae3c6c88c4f15e7cd208b0, 0x58760d82a48951118dcdaa4584dd0aba622c1f013838616c2f2953e8babf94cd, 0x2d0def5365c900b928f914ee36db7dfb139681c1d28e7fbf785133cc86bff723);
  (0xf9b87f00d22f6f9cd23d9ae6704d7392f64b58bbe8a6ea97e135c8e39da1c6ea, 0x7bb28ad6ea75989e4318369e389dc24ccf194957b8e28bda5a9d9ac7795d60b8, 0xbd1082dcf622fe6832af66cf04dac7e7c11e7e28777425054db90d8ea11cb8c9, 0x622728654b7fba59892b66d76f4bb428ca0b4b81492fce0bb59408bb13e3c70d, 0xf3986c0669103bdb3fb98463869460bb5988324eee0efa1952920f764ae1a263, -0x66f719a1f64c060995c5a0a991717e013d4ba5c7af08c877bc4e62e9a04756c9);
  (0xb1c1704b32d05033899023d904d8d486d4602ebbf1c5aea6fc6e32df0d707d13, 0xe47d411e460534698b1007ebbeb4ac1df61ecb3711a1ca14f69583b837acd70c, 0xf7c09c9485f7f12c9054eb497b4a11aa1c840f167770c2bd305c67f402637dec, 0x533f63e8b85d4da429c50769f04f9c3677f0ec2d93540d71dadaf8b2d0632f96, 0x7b6d0f727ee88f8d4840dc4f6e5c22cf492263e96a9d0248c61ead772fb45ead, -0x48c356d23a09ce1523c3b7c592b827932d9bd45d87b4fd50cf651fb3e99ba5b1);
  (0xabc3c96a6ee2ee56502e1e9e7a6e2e45e0cebc49a4e20fb5fab1e4331474eed0, 0x81e91920b8344899ffa215ef2b7cdd7699cb3f9e5b5aef437c223bff1cb2aaa3, 0xb848eac376d20d1df46deb1830fe88f496f0434cec35f77b486aae30c160003f, -0x499ee9cbb2bbe225ade6f38427d11f135a9fcc7568ef4a8fdaf69980f611c0b3, 0x733f24d0a6c0667ec4d47a890a75bb18cd335bc38c5d2f4e7db882a54c2f53eb, 0x42245b20234f42be3d7b6d7e21f29ffc4e5ea2358b919eedc84e9210516a56e5);
  (0x1b6da22faeedc83d052dbab08f359617af8d2b8afa4e312a8dc6932e1d402043, 0x6873493a3d0bc91392faf93a3d37a8b059f31f5a1a940f8f3b23b064bff801fc, 0xc44f1cfa3e290a7c34b73910622b7c762ed738aa4f1e54744403030a36648b5d, -0x9e49059717bfaf4747fec12c1bc045949ba8062030e48dd5e8b12b4e26432121, 0x2f04f29924181000752e85750466a75d3c209d5a2808ab062ebf25fad11d187, 0x2ba54381fb6743bf2ec5c429ecd102a3e087acc2bc67fdfb0fe093dc4fb28d9);
  (0xfd373819f4f13a9ae8f3dce142b03d6a0172c5bcdc1355bca83f9ffc007a8af7, 0xd67385ef1fd65b960ef2e704ec897ed9eb360e73e95a66cee359eb0eb7c8868a, 0x784c57214583391567f48fb9fd2bc2430dd101a147880f62c27cabbe035fdbde, 0xe287b7e7d221fbb9da6b0457a1bac4b14be93a0313e645d81b565571df94be4, 0xfa7630cc75976b48aa200e910804b9ca2ab185f5d78af07b32020cc6dee125e5, -0x6ccdf627038c4cdb10d296d2e75a432727b14d414edfe1973a5c019796f49bfd);
  (0xdc0572541364f15b9747810e7dddcdf928f6acc1a249ae3241e79f3365dc2686, 0x6947b4e390dcb2acb12bac18a27df83ee5e1a5e4bd1e65dc9a2836b35fe9bce1, 0xcc5ddf90aac6d8a0d279c6eac9e8282c7612d077799b875cf09cd342d53ce142, -0x14c27b3f893b6b20ebc43ac69557938e4b2e9c04a20bb69ad3329ae2cbf07fdc4, 0xbd195c9e2bad3da97c42e913f4541ee9e0ab8173584fdd85f2a20d5fac33b96f, 0x5dd3fa4261d5620dc34c4c1ee9b03721c2bc2cca15d26405d27943e6d88f9bd6);
  (0x54f70d1d8e4ad5023437f3ad6f00a7c071e62b46694f6ebdfa0a60e67ecc7afa, 0x3224f7699b786222f20782c74537d2e5efab156224adf6b8a39ab3369c4b088f, 0x22f44f3c8c26c999358f0ae22ee66320de4353dec7552798951a76fb3d9cb095, 0x479ac2d71c1900c1a05ea6817520a1b6e1efa32d7768a11898706f517415de5, 0x1c330f05b515b40da23311ddd5626182998e3cf1087e4762f5e3dfac9c36978e, 0x124c9b83f664b982989d0afcee397bea6ce2d0615f279dc01e47f61115f6ddfd);
  (0x6328dd8f64b02cbc05bcd6dec7c0ea37ef04520b0189d674feeb184cec73d4eb, 0xf81f3aa69dacec10737084656b6e6bd37bbdff5de84b63ee65c2ac495e3439c2, 0x466990bfb7be1567d9b199c5425005fca4ce52efa76aa9329d36c4195163d374, -0x26343d0c0134b96bfa761c31bbb5b0c7979b25e1eb597279c4f0ed060eabbd5, 0x2668a1e2e4709dd138da915a56e6eacdb8cbbfab753a70b417bdbdd4cc9a8599, -0x4caf62730a17e4727728bcdea9394c9c37a58d3127d027bdc6e36550563db95a);
  (0x1394bc420cdd20de75370ed8b558486d5184853a258212ba0f350f382bc2595d, 0x9d1ad036493ceabbe1c6e8d996386ff56ffd1fa422c9e31d0ccd16dca113771d, 0xc8b05e0d3e87460dd904c01bfccd994105f34848900cfcb86cb0da6943a3b430, -0x9e4f49d75d531dc999b8b5ab3dbdc5ff5afd9cd500b9ed238cb24c6a9d36177, 0x17f6a5c04b8c67e718edcd142faa3fc5e55be76beb8dae922df071336a3d844, 0x6f635629915e34edd4b53f73e7f466083a30b214c31261cdb3f59e290397b0d);
  (0xa234028b8dc7e648bedab3670d237f120a2e94ae1e6faa5698ad910af9ef0da9, 0x37eb378a26042b4b79dc5dba1e0382b9b4eaff6de7eb7f4f42b45d5ef1d73ecd, 0xc6788ebd10fa554329f7afa3531ec7b1a6a6ddea5f016e20bd941c6180a4a1ac, -0x22ecefe816ccea9a845dd38860fc8e082e611e5dccffdb57185ca1b13942fabb, 0x66c5ddc9a82912f4044d59a5f1471e9b1bb41bfb8ecc4604fb3caed20d53e00a, 0x401cad4979548885971959e3d349d59b122cc0ae410e76bc93689b7a417c75f4);
  (0x1af661e1081e48000ef3612f44b4bc3ec5bf0fae9a00b094abf89d7f308f8a6e, 0x36982838bb66b6594c253b3d5c5dc8edc57e3cf16d4b5dbec06696ff5c5452c4, 0xf2de826cc160088d07292272b497d1adb7cac9c613fbbca2e4f53c6a01aafa4b, 0x69e7685a2adb84e5e428574b6fb7f4189f7980a160fe9974a97e807e1d2ffab, 0x2d6f901f78e0ec89b32af000d762844ebaea5e478841f9be02e3b9beec547cd, 0x23b5e09fe981b90a5230eea5cc292fe571dd43be8d172fafedf2d0ba9a7927);
  (0x2ffb29aba552d5b9db0b757d44be7792de71086fd96b88689f133be659af102d, 0xb36712df8a2c32ad3318920850bb029e54d14639d4ca8ec3860b9f5356bd3401, 0x35f068ccbd7b7846a27217064933c4843028e45abf4ba74eb647b84746e75e7a, 0x381ca1117abe96c7cf983fb0f63514280d6fdf68591477b5c0423f38cfd212ae, 0x8fe2fb7c41308f428c4ae5fe1afb8ff6e387793e383bff1288410eb6901d660, -0x1764704583e831b57ec0136fa9081e5dd0eb6c8f878369c52a645acff09182fe);
  (0x7bdfb45cf33b2eb2d2300097c0d3412f38a7e0a3f73da52d772746a2a97abc11, 0xcbad0f3cc877c3e8917dcef34694f6ddd442feff707453293ed100c30eda0de6, 0xd3a44916c67a0924e14f3d7532fe24f4575ffb49dfbacdaaaee7ae9a837b185d, -0x1d57859de6ec356d4c03e808c94a68b0e6356f9364fa4247715939f72dec3510, 0x3bf0bacd0abd77c624d2c0a378fb889d7df0f9e9ee0d13080b73480187111094, -0xbbed651a7cfdf05c1e714a8fa15865aaf66dd3e90794e8f178019052b990c0c);
  (0xf888df8a6569e0355b5054e4696a3cb195713937fb1782f12bdefafaeab7fc1, 0xbaa8be41f3bf628da7924e0b6d5afff118f263617e33920de16b51142501d0f4, 0xd2b39b72217e679c286762ff3b32a9210af1705a71395aa765a0ffd4ed318d94, -0x1cc74b79b8fa9098cc0dcf15049c3501d9f48dcaa7efb25a82df4bdeb8c4eff32, 0xf1497a4a6abb4a658c8c0f24ef9f022fe0111c35bc63f2a9702fe698090181, 0x10854799f8ef846692bb32a29134d79df1a1c180d732da4c6a4ef2091498941);
  (0xf12a2537d8728eecf01aa924fbcdb7bc092fd77fc6364435e8c756f40690d67e, 0x2b87e3ed74494fb9a69af29103b9f77d077c7b4d0d84e14882b8cd727075993, 0x853f5d3f26d3c300cf148265cbaae2a3359d88d925360f00aa5b42208ba76905, -0x3ff5df9293668acf2c3f8fd95e5ae61f9532dcbb5e7727052d9f0b4132bfbb8f, 0xe33061036143e770d75c66e17293dcf5510f1e3cb2a3837e604badc7f62db117, 0xad47746b47b58125b95d19439adac4bfd952301bd94d695ea0de60175a3e02e5);
  (0x8afeaedeb5fb43c550dc5b0a94bdc872b95757e1e62d87840a079f6f444f0e0b, 0x609a6fa4ec5c8426e5afc07b5cca582caf86919bcd249abe9182d9b6aecf976c, 0xaed2fae273a184e543d9ebeeb033ba3985b6e969a444c0aeb7db251ebf6c91d, 0x909b3b82fd68c6b00384513963cfc0c74a88afa305ce048309c0e0110c55e373, 0x4b7791e7959784cce8011002d68116822a6e6eb7df92a9d396e643129305b927, -0x32f9326fc96772988d8dca339aa51f37127a0b262452930f03e848c5be72b635);
  (0x9b011bd45b155b672e9537128f57c6ff97011edd94172711ec1b70752169ccbf, 0x20b9a8afb47bb5da2b06a4b89369e1d977a64876abd65c00228a720eecc39109, 0x4159859c745cc9479d0a4ad91887691844224af52da629c23f2ee2de96b28b77, 0xd6b0871d69c2771e8fcac069bb5f093f72a5e35685a70e84bf9976a71aa91e4, 0x5dda57b460fb0e37264665570328c8fa48216056b4e2f175190471b8c64a40e6, 0x26ad5f48f1a52fb862016350d62b7adf0479a5fcbdcdf066b8c2248f144f0809);
  (0x4dadc13b14e994d81257a280eedfbdec2be934b512f1a3f5f8e4eb6239afe343, 0xec13820686617d447be610b66959444f8d52261edb5974cf55dddf820054efe1, 0x2ecf435cecb3d9d7ea9a9c20b4ab7e811f6bfe7e644d732e34b5167fa63c3861, 0x1b1bbd925a3138a82802271e648f1c40e5616f8fa6f0f1df27acce014ec47697, 0x1791fc2c4648ea67fedf3dd5d41a62c0962e9d1cbace78eb380ac1057870b616, -0x3db40b94a7fa108084ea75276481f8f43ca6e77b54d94b91bd0482ffedb42660);
  (0xa86980221ec4ea03cb2761e6e4522562f5aa0c3c01dc5d21505978117b265cd5, 0xdaf628b9a93b3c243b40b8c0034b6421ed1c32dcd51be00098f439f31416036d, 0xfd76a42369af1bebd5b15464378f1303dc02116808cb011fe3cbb7ded14653ad, -0x4d2cc53fb70a262ff5e19924d2cd67c8c149d2645a26b4806072319b81670bf5, 0x6ecaa3a72481d3fe0bc50946c2c740ce4fcab740daac59094efbb5eac03e2205, 0xb4250350642b4cad59ccef158c3f8af2668d32ca1a77dc24d7b21ca87b02cf6);
  (0x9babe8a61c536ba75fda62046c76a7b448d5ee0901a86ff9c7ad7662d48e36dd, 0x507528c2f7dc3a39fbcb0f6386f7627cb99ecce31fb067a9a650b7f569a32123, 0x54deba0cab8e72cb519539d322e4782e9e183bd21d6115242f8ddb856a3cbc2f, -0xfd966a395dd0962d610fe2a9ac73d266037668ff9cd4ef9c0cd19846695ae549, 0x5ea99f29c7a45aee721dd5f806e4fc87d487a2ae5028d01653115ef58f4b13cc, 0x54391d041e1dc964aa9d2a7cdb14804f57831b53d4978c7913c98e5b64be3e86);
  (0xc0db338020837f36e87bb2e29c7a2f2082304f96065b41c9f9b60cef3b19600d, 0x3543744fb6c6381cb17f4ab4e025125be5a6cbd494d4c4fbf9b5528a0d8fcd16, 0x52d84942aafd785dbcfa76b136a64e3b30674034e6c628f7530197eb8cf34a91, 0x1cdba5c2278a87c54b47059fabd63d057e539335c992455cd752dd91d332da97, 0x914988f158592ce2f0fb8adaeaf08e76a455212481f8e62ff07542c3d665084a, 0x147c905452aa8d82f104c251a8e3f91d720e77fd537313bacbd5886869d78aa9);
  (0x7edc6a0efcb26460c6ccd852325fe9d5dc6cfe6072bf2a27dd18e5c962b62920, 0x383b6ea70d8bbf11a7abac308ed47f4c2c44da81e08940a41f5d76818ee79b42, 0x79a180ea6a408367e747652f1128972cf34dac93d1d9b096372260d7c11e9e07, 0x30dc90b31207a4a6e3690cf925b4e5fea60ff9beb9758b07484dc12e5586e394, 0x3eddb62d36725790221a262a5dbc38620f1311fea4cecbb9c4bc3041bb6d7812, -0x1789b8cf9e9d0e51b972606627380e9dc52de0bb6a33ae4554cfae4b0bf9c18);
  (0xb401ccb390ac5906f0d9b8dcbc1aaa01a8fd54205a33f2dd428a7a8adbb5fc96, 0x99f81f79a1b93872415454b60e81a4fe71240a0b71e8650293f0d5c14ac815a1, 0x804c15d8a0a1666b51aca955276f8e760473143c7655108075aed36ce19efdb4, 0x2bf832c34096c7dbb6f6f4c987c6614d52107604b3f6b3f05c3dbdd5196e8520, 0x7e9287dfc0882b10c569f5693895aff2224df42749a934bfc800c469c98ec79b, -0x44b95c37ac15ef11be9e8bb6bb974acba6c0e10d3c95222735f3b54b03a02525);
  (0xc8c70b19dc6e0fe56c74a7261076049682b0bfce825a3818271814f792984a9e, 0xcf1195a48a705677829e135408f31c4ac136853943cd8dbf1fb22ded0e9873c4, 0x4e93676a53b55e5d60137ccb9bea67cb6e9af4a7accf3fcc29919c221ef61482, -0x4c912ec841125df114bbaf6aef1a53015fa4fbbeb8a4f1a7075d78614d30abd3, 0x9d779c1aab1be78170cf0f4c889a4d5a64fd1040b13e967a9b186eb6f52f5cfe, -0x29a52d69d6730dc6c3e30a1f9bae9f82df2230f22e29bd1026a052eb0f5205d0);
  (0xce6565acc351c5fe4513aec2be29ea9abfa0c55b63dccaab9571395bc36967fc, 0x8d96f6554e9a2c5906bb7ea28fcae15a7967a60461ddeb1322c80a25f7392749, 0x81b61e77fc9cc943787e72a2e33e448015323f4555ce211673c43395d2263d23, -0x4731b6081cd81087e225a6a0c88a610d0f1dbcdd5f1b6adefd3036156967d445, 0xa66757cb6d0b7fe102f08cb7eb5307f04f03905e3fc8740dddab50a3c963131d, 0x34ca9b942d9b8f0500ccb7a6292d9bb7e3b387e4e3db033191681dfafb9599af);
  (0xd5e123fe1df4c168f41d5dc4abcf93218d5203578c39d6a01a0904e7b5c43389, 0xae96e83476c5df783d36e17e2b2e7eaba8d4c23b222af1c2fb9d663cf276e1df, 0x4129fa2d07aa7ca46ec072543d61489c3c148428f9ac7d3aff9600388fa65e2c, -0x1231b7d02b66814a75f4245babae7bd90579b5515504569db3f65eb4fa47eabd, 0xb2b06be527996a8502c9d67f9506b14be135e63c32e3cdfdb2dc217adfaa16e0, -0x1b91f9d6016eb3a088a7019d7c7ef1be9b219d04c9acf385e64fb3050ecd6d55);
  (0x9cd2c8b2ca32fac92bf59868a5d59d11c23709b6a5c81b4a2d032392bd00a6b7, 0xd7bd1c8cc6a36d4b2e3090d4e24ffa9d3f3cb5ca2dba59555894039550770f4, 0xa9208a601d0f9cda4fd02a27d5224683d942c1b29ebafa1ae9b7482c84df5353, -0x2232b77dafa92d315b99b401efaa876c8647b4cd2b31da75575112acddd71d92, 0x60119227c919b6161613030adb1a26ee9ddcabed81b1b7d2350df2d951382858, 0x62b1282fadbac2b6713509ecbdbf6cc50c640b61c9d046c9d1d82a26e4132afe);
  (0xdd956e34c92e2c401cc37a733bd11743c1dd6488fddd203085614a7925e49c87, 0xf362f7c122c0fc0b4e86eaf471429237e6bf6e39290dc927609fd2baaaaa898f, 0x93f990fced9f6d984a1682150839f8f0dbb75245448c458ad8c4d827bef791a5, 0x122a632d3c5219bc007461b1139e934cba0d27ef18e797aedc06051575bea1f5a, 0xbfcb57809c3d4fec3b2d998bc7ead0438ea98d0cd2fb597f1ad272b7ffd6db3a, -0xc6febe4936038861dc113ceb970f35b71ae8ac758feefcd5e09a62edb2b78075);
  (0x8864cc8568f4519a241113f86db0b0d537b5ea2d4e0052ff411f628d79141647, 0x1ea42dbb2adba93a65130374af64d873eb0886565f2634d57d4ed9dcc3946af, 0x263ef7cafed73d79c938085a39f705ae496aa1b3039d67373f89a95dd59bc57c, -0x4265b8c7a1c24ebdf9147e1dd0097ecc0f0dcded8d1bb5e68cb4b4b520461239, 0x48ab40fe2b227a5f21b031ad2559a54ac47d827b60cfa91cec2e297cee90598d, 0x80a7342a94065051ec5bc21fb975193a584dca46a725fcf2546c1878c45be63f);
  (0xf93dfd729054620724416a517c3353e52c87b71edf0e95de25dbbccafcc58aba, 0x957c52c8bd78e804854d00cab724343ac75b065125c6765de9db7ca1ffa99db4, 0x39066cc700974df4210c5108b37489ad501b0887827181275cd08d8e0b17a9cc, 0x4a6e0319a3fe10dae675b59ae3712fa10b2baa3e9106043e727527d1b48a950d, 0xf2a9a60ba04893744236fe1d47dba439990f2001c463512bd57f5a4f3adb6d92, -0x8faccd64bef65a3acf0219f68e2419ea1cbd122db5a4ea3c23301bf91bd1d66a);
  (0xe9686b88c4e01f7e1a70a47d7c442a8c833f1742920ccca68a2262fcbd645a68, 0xd49a6afee06be36a6bf2906e546dabf74b969bf2b695bb3bd3994118179bcb2a, 0xf684b895a1fc6a17f9cee4d5059231729070c2c0717df0986d44d5f275672ef6, -0x1c02a344613c9ef9fb43148f73473435ce74cdf7cfe693308f2386cf6827e3a3, 0xd4cf3e5682ab8d1242735b788c634191bed5ee8a7b8d60d0cd55610ed54308bc, -0x398c22c6687323865edf72acec7af6489768b2712cec96c8318972f067aa8e32);
  (0xccf21763dd1bdf07ee8dfd53ddcfc5bad69c234f477ef2183a97f6aa27efa672, 0xd5411cc574e106b5e0c2fb1701944be83876bd7c29966946130dd4acf355ca07, 0xa8cf771bff42167b98621063131a1040eaebbb09a4bde8dbd4b7a322a1f277ec, -0x86fa94e97e7940d2bcaea3ccd45aab94abd5b13fa6f4c93d045ff4ce5e9f5494, 0xa412ba3763558cd613cc5f4d2145cbddd612ad668de2ef41e1620c65ac417729, -0x85734d87053f9bd603e4fe960ecad2a492112ad47933edb46b77d7d6cf144c);
  (0x3d6ef70e7b2e2de009ebf252824c8dc931a1b6433cc8cdda0189e8997ce45a46, 0x24812bd170a3baeabaf28c2dda739ab191818fe8c1fd88f987060474513e7c0c, 0x4a5019b0d7bec4679cb6fde95d129c9047f462d2865a3cc59d6d3f5160440362, -0x16acdbfffe6c28528dbf62436786b39cc3bc210c62db02264f485ba82b6dfcd9, 0xebe11d62592d011021bb84fc2af0106769b56dfec15a72d59b7b3422f5f41ab, 0x2a6a5976dee325c44ed1a83f45e9d141d5e1869276f0a8f2cd1ee90d8afaac54);
  (0x8f2aa1898951b9ce34707038b419ab8fed8b01b9c75ba3e63235ad9c2a57a936, 0xb0cfc2e6a17c699f3f3757376dfd524c179bf321bb0963dad6d91ecfe47013d4, 0x3b6716cbebf17c1aed7122e42ee0ad4918acd180e5383c2a8c0593dec72a6ba2, 0x43807c44500e3c6a8d18ce21d331b8dc591da68d1bc84f826d5ae161af92dda8, 0x5010a7910e78a5026515a1e388c86a7730284bc08f40b7dee626da98a8de7578, -0x4e7743d26e1914c0dd570a7959328b8f874fcb2fc2ef34acc1ab695e6661ba34);
  (0x3dcf979f2ef8c128d900805061c90582309f4d2a25176d8b3d21a8461a88a0bb, 0x6f7e6f73da8ff3d28cc35bb56751ad4d912a42e6de55ca31f2c82112feb4e1c7, 0xb8ec6813f38091e29472107a82dd90bee8bfb8bda2f62e4cc25d38d3e4a1d374, -0xe03f6ab9719e9b4bf4abee84443a9492e31c7fe843e0fece8f20152b9ce7ab7, 0xeec9698699daebaacf5a3d3757563b86b56e91dce623dbeed556dd34a073758, 0xfc5585468eccdf4404eaab94ff1a6ee95985703fac68b9d1040bba15044bd29);
  (0x7f98416b07f7c7e8b1ce0344ad768a90b9c3be2ee26a976a6d8043049bd93990, 0x66278bc30bf7e171f906b4a4b2e4558c4801427a9be81111da18acc3c30be415, 0xfb1093e6c881e344b3aef7b40642f569d2841c0ec0fe6701bc07e06bd30444a9, 0x26a9dd38f6f9cd1ff4cc40af0a7ff97e8575c699033c703205835dce6e21d82d, 0x3f986b75f1b8d561c1a24f735e652d68c26f399e2380735f623ce4920b08251d, 0x4a7a8eedee3951e56536049ee35daa425cff71043a7b1f99c839e85257faa43);
  (0xfd13fa0b5eafc495e6d245b2916d1be915ccc6125c59430013b3d810ba2483c9, 0x31ef04a40363b7ac551828411423ecc4171259e8605c02f960d4a0d94babab77, 0xd22f020d662567ed6bbf52836f68c95269a8dcf8051e05717d6fdc96d6dbb2ec, 0x106b8b265e3b5e91af315ea440a74eacf69ddf56139a98c73ddc7233874fbf43, 0xfa307dc98b11ae180a9119ba438fe0a29a0e82028688a6bce0a55a3971933fdf, 0x339ff0bd387ac9591aa41344d0b448908d0aa7a83391827b2cf4f0b7f2760f39);
  (0x4c3e2ab2e95bc651fc64258c2fdbc0b308793e8d1521767c4e96f784646531fd, 0xb610e713aa08320e3c56aaef856cd48fc90e7602805a6446a6ba9520699465ca, 0xd526c1923c1d043ab1ec7e1eb1eadac639f9a970377fb666b1ce45ddf6bf8f59, 0x5ff9e148cd7f17b7ac38ec7e8afa114f2a92a36893373b73975564126556d445, 0x16b4f872f056b7d032fc9789194287bae47fba3f9b65c62f9102912c830c4211, -0x275a2577e3ab28a33149b387a45cb8396261c00a52e626f6b05d1017f2e46a4c);
  (0xecbc4600bff968ab1273c9e3a744b3af20effdff442f12cfcad340a57257ebdc, 0xafcbadfbfcce1db733894eb3be882acefc7be09ebc09ee88f5977a0fbcdcd0b5, 0xe36477935b19fabc10719acb5cdd33c368e40824aa9a402c812ad406360762c4, -0x3a89cc334a21452c2bd258e687e47cfa8a396022f34d570445c04d68c1602796, 0xdaebab884632384a1a7c418fa24af57da2ea48b9442417079a00d29cb506cb2b, 0x5cc6d2eb364fc428fbfdc2841dfe2a155ab2dfea322bb053ae73b5278ee782f);
  (0x73ffba56a6e5943120356b49b1a8e352686334dbff6619fba89ec904d51d6d06, 0xdec9a5d513d64d6b5c70853ae9ea9ffc3b9afa811c7be510cef230f69a68c32, 0x9241d5310f724d5a1df9c794b542b7d6293fd54fab9e505a42e62031d23a5a35, -0x9c15bd272d606535c20be90548a7ad0edc4cb586173265f75859e036d27b5cfb, 0x348fc0de9a34c85b8733a6b161aa93be935947499b949109063df24341c24488, 0x4958e8d7b0d8992340a43749d69e5f1aa19c3b11355a609cf75a241d2bef15d9);
  (0x6f0aec1ff3a9df0e9c6591e4162104b7e782cad65c4c7f695b67fc9dc212368d, 0xecb9b20c39646626dcab6ff51b88cb3a46b45bc4510c13f1c5438fd1cde70f51, 0xc41455805f622f625ee4aa4988e4f5726c076efb8f4c2fd614b1a3c53db0a701, 0x2d79b4411ee392e45bfd9de791d4e273b683187989f7ef135be9e6117758b71a, 0x302a793b019745f237173086572601166304159b8547e2c39961ceb9a07aa080, -0x60a46ec8a4399c4ae7b7ea8588a363f5765a82813d6c85b43f1e40184b0b7809);
  (0xe4872e6c113c05dae428e7cc83a78c64ada2503ecc769cc583f7a49f2228dc3c, 0x36e5dc9fdcf09d38c64e27761b2ea9cf64df175bd0a77449a7b308b10da93aad, 0xc294e7ab3504ec0093d2946d60ab514807855d708bd596146256aefd893f2440, -0x132a16810605ec520d31b86b886cd71c4ae77af7a95801188ba2288b50ca830ab, 0xcc0112127d181b8c312e2191cb110ab281f487cb562e7074afb6451569293381, 0xa250adc2e0711551a3925b99b1a4dfbbe0e9a4800ea2556da3e11ab3ed88b06f);
  (0xfa4cf40dc720a2f4e1f828e020c31d09b2eb7c2614208632ac6e2da098b2d0dd, 0x769886b8ccb35d6502031295c1c5b2fdd463da4815a7b3c488b9f1f9d7dc6af5, 0xa7bfbac8fd6baf8cad6cda60d716a1e604ddb701c2f214a76755c0251ea50522, 0x3e71c2de025909c19472aafff1cc031167c220f6eb19ded65d4fc206121a4a36, 0xf4ba63ccb9c43dfb1595f84fe273139cf097109e3ec196271ace5f167ba43a41, -0x3e479fe09149c660af245c72bb7d5cf3c9bb06b70ab79717a319f2d908b30b0a);
  (0x531aef29bacc781cd0cc3cd457f2232169182f963c04a124e550e24a055a5762, 0xe4bc64a51dd2ff9abfeb1f0cc59f45cc30cc5faf0149f2bac4e75ca78a7b04e7, 0x6d04ae271a94709838ae9b52f221b7d10c8c99ae54dc4bd6ef509ca9ffb118c9, -0x37e945b8e90842b3b0b32023de0438fa7004c34fb6d14348c290526ac81495a3, 0x1afa79ea830979023b50e1dfccd96d148a982012f4e1832e2eb4492a11f476f3, -0x23c1377d9899b0e32d925c838837c85f9499a30935306efd171dfbc9855ac7cf);
  (0x9ff76d5b2e3e51e4f8ce8d512b475bcb1550ff81b97b9942c88c7af81a6e4cc2, 0xaf992da289617ac7b771519bb9d0f5a5aa38015cdd8642a5dc83a110e64a6a60, 0xd72b49bc024f463a5178c9d3f2ca52a3b1ec1fbbceadbee493a3b76ec6c7e966, -0x44b7cc8ce6871998e290e3209ac765a9166a0c7ab03cb13d1af6fbbd379543f8, 0x63f548fb781b6bd76f4e5b625c192f5de452902ac61c068e29af547ae84bf957, 0x21343ad79939a58ec87f0b54873dacc1cc0df2ee43a53f8a2878a13b68b9b55f);
  (0x8ae642caa7f5f667f8187fe05263cffdf565fcc347e43f373d85aa06fc3ee030, 0x37c06ff10094aa5e0e81b66bec5ac17f48ceebc6efee11e4711a53431cd43b7, 0x465ec47cfe98a099c3b15c8c43af8d755988b8568502a242899934d2a997df7f, -0x7fda9a9537bb3a4ebef2c4bc9d81d8ca61453da00da5a02999fd3d647b35b5c0, 0x4b5d0f1e92a81aa72bb581b0fe5df0d97e34896bc556c40359525e57c39f1549, 0x5d6285ec9a2b9338804f6bd1e32fee6361b9f9c25f04f865f74dace863a9490b);
  (0xca780dc408d30d39b2a70274f16921d282cf6d99e43081c63b710acfd8cf95d6, 0x6b85def5e60dca53e9cb10f49befdc0f15ead37e40fabe9988aabb24d1bf63b8, 0x336bcf53077d07667ac141132750cf997b2847de6f7bb606fa974cde24865973, 0x5b2c8df68af86a3ef299be1589067dea42e12f5de613bf3a8ab4058e0e26c44a, 0xa021ae064672d5be66d907c3c98db8226adad3fb5ee254982cd3848b5f78a70f, -0x52488e9e2baad4f1ec6ab7f30a8a5ebbc6d9c9cfc9712042b8a80457d1d894c8);
  (0x50de7219eca8e36cee22a775cf1b0afde55c6ff9308359005a6930f72398acfd, 0xe697e67c155328801672cd6affff9291fbd511f7a37c1bb808703cf097646150, 0x72d4fbb677147d4d69031ba3a4ace45d71e158800755be6124fb50f5b6a3f409, -0x66feccc30c89b87f77757b0b243dcca1a3c0df43fb66ff7f72f8b485fa0878f2, 0x198bc89a4bbb1c750413eedd91c08a24a972c31546bd6e07c3d5aa60e00bfe09, -0x26e092d6f304f8d6f85e8f4f9ba5f70705a8cea2b6d7514f8569cd1975af6bb4);
  (0xfd039646d7fd551e03422ce45b1b2b7c182db3bb69115bdc22e29e39fae64f1b, 0x28cd150a4386daf3e7c72ee7bf4555b701611cb0467116e55baed674eb89ee35, 0x292f387abbd3dd12017dec5ed28e6df18a321e2124977a189b24e8f16ec0d4e4, -0x6e865b7345632731888e5c7463ef3675a8610c220582ece017a5e1df25dadf64, 0xfa101714e4cae2e505aa182d81528820360a481f7e36f7d3870b835a1241362e, 0xbb9419c74cfb7a87b27a31672bb7c5e46fc0e7b9ee23f0fb3f17282a1a3e88ec);
  (0x148fa29cabcdde9d5affcf672b2a77b858be24759dc33e4cf74a69c5b50aaf, 0x99b10e2c9aef0904fb94df137d089a62210eced89f0eda1893d5e253267108a, 0x2c54261eb508428fe7954062947f41a73ecde345ef741d22c961ecec843a87c0, -0x137b9301d55c273dd432521aebf1515d66d6f1c8b78a85ff6eb5144cd0ab5573, 0x1a6c1ff8d2ac419adf6c618ff6efbd753eb5c32afc5c37caf904d69ee6d, 0x2816914259cf008d5c63521940178d3018d7e09d254a70717d862c0359801);
  (0x4dd66c1de369e9ab3fb9d92e638c11d6b56c5d78e4f3410d8abcaaea6c8130d7, 0x87dd94efb97df097ca7953dbb13a6dcd1ce6484c30d39c51f3f32e3c5d0be40b, 0x50c59ccee443acbd992d5a8ca9b48895508adf06f23783056b6568e18cefe6b8, 0x2130a0d9712660bea469e424cb943b42d446d2da54cd88062583099157b92c85, 0x17aab0a2ea6f27025bd0c62577921394c30a8d26bd798f40aa817b346d6f66d6, -0x2663c2a514595c4d66a172717d541e161d0a3cf80edfe9ab48be26c8badb2d0f);
  (0x851a9fe4839b04229f8ccacc7b91f5bfb73dc4d885cdcc8d71c3333d8f6f690d, 0x86e176284bb50b60ffd2b1c214a23c27382d900a779544d7b0f784b8a1064cd9, 0x69fe8ee87c25dd53cd735e4279cd7f961e9d17b321d5a5b110da0d50672de88e, -0x845436a5778462c28b15186a1208da8e1d264839b22886a2933b7a687ed270fb, 0x4534ace84f07753e0fbb174831ea6670e7cc90a464f0f1aaf0acfdd597088d3a, 0x831636347568b50ea3efb5b619eaeaa8c4db6dd882ee545e855be752154b44);
  (0x7af29a764dcfba2f460493ae687bfb72873ef9e7e47bcbdbb958340f42b20053, 0xbe91513bf152b9a07d592a57d7e311f01ad4b13732a8c5ed44123e01575d0b5c, 0x7f3127a1e69157e11d5ff38efe751ce631046784089bc4e4bed6dc962015e65c, -0x7bd7e4eeb7273bfd7fb7946294a06211b14918f4b8c682620abf438475ae3fa, 0x3b0c21212707a67acf43dfca8f34674583a02706678e72719076c3d8f0d1e38e, -0x1abe943dfb45955f46bb2cfbca6f8346074f8e755dafb793a7120cce099547a3);
  (0x5a0136e407536625862bdb98b3d343c3dd9c824fded5a7bc11aa4c5fe7b37adc, 0xff252c2c9cf3c682786ea95bea16dd2a0dc5bf691e19982b8b4561258dd2e262, 0xa3b3d20120c9131f0f3e239f287ff65ad749ef4390d88c8f0336daf6a5e42cec, -0x15024506ad4bf03dff1c6d4fedfe4d6193300db7417a57d307a56157108582910, 0x1fa4da99ceb3b0ad6a7d54f206d2da07994eb1c96638fdcf22cc786bf7d76076, -0x16b449652cfe2166447ab8882b9ad7d2883ea258fcd08da9b518b81f00762c70);
  (0xbe59acad0688c8ffb37fd8d760c7eeb2b2577b9c2eb942227ea3844f910f7cca, 0xd385eb06fcce3fbe0dc46682fbbc56fa0b4f0fe369052203e78c50d275036528, 0xa7c433485bb768496d220f8b17e54de2b984afdabb78611492eab2182636cdef, -0x65682c6f51ff19398ab9782b10c5d3b43821871f225ab1cd38641894acfa312b, 0x8d893bba5a7a8b30f35e8a13097fcc5aba8d6f20dd844eb6df592ad4d4229934, 0x206f7a240e71df798c36df6674a84246d0f5d95943542f8c36b9a761361b99a9);
  (0x62dfbc7fb31db91b6771c85df62dec447536e726c693eaf798c4c60ca652f045, 0x4388bd868c51a56e0c3754741fafe75929ed1e974e30e6b62005ee8a1e2c1131, 0x6704dccfb848badbf9e6c96a5a9cb19104a48f1d1442547630f63b36ff3b5115, -0x18abaa04e6c44cc767330d403970a2ba9416b98f3bc69c5a122b55e2aa469db6a, 0x26300fdbb6689e4855a1d3128e140820291127864e07591e3925490a59a53918, 0x379cc2fb8eb4538cb165023c862bff72c844d9da6b9bd2571c07f4bc545b8fcf);
  (0x1205aee6875f6932936c647d97e0e91cb2b852a704c1b31eef9b64e14a366d71, 0x99cf2943c0d8245dd004fcebd962902b2da9b7f8722a82c8dd628e23e97b6b8f, 0xa06b7595d3312ddb6bc6812592a8c9797ac45d1c324d4db6288078b8de94210d, 0x39b47071e0e1bca63c45a189c1d6d44bb2ed50ad4c6dc5c1617e1f9bedeb07b, 0x144ccb8b788e42272bc8c286be31f0fabf567ea8305f293df093b7840ac97bb, -0x612dde4f6822ba4a11a53264edf68b3aa557791a21dbe241fd0568e67b3d3a0);
  (0xdc2d8af03e6c6748175f56c803577b04b317b01482507a1cb19bb1ca78b52941, 0x88cc21de8e553fa9c61069d7032bfe5ee2aa2528b6f3ce97ab2a5f1439b2a72f, 0x49b122c2e82c8e4d204385e93c0c5b950eaed3a2ac6bee3a1798646ed944319, -0x14a0ee2700a4c5b3426028c184b1b5f8495481e5832201b0383a8ee01bf9fc9, 0xbd5e4ee70f282862315824f91e32e068d2bd5f8738df5739fb69e3777b656334, 0xea1a11edd2bc9957981ce7e09affdc7c09fc040138f83aebab1fd54f19eafba);
  (0xdc056e6ee7219ef6c0ce6cb8c9c3b0460fd0443c77ca0bcbff34b3709721331c, 0x3b7508de6b81c7097ee6dd048378f462d54dd4dce694c10b075427a1638b0e72, 0xef04667b7c34aa752a965ae676e1e0c92966f56feccd2da52a3375dc77ecd81c, -0xf7fb21fc80aeb16372e008231d54f86399279b6bb85a90513ee9c4939395fe2, 0xbd1955ec1d3a4f34a734adf89f1c36133dc5e088cf04bdd0b43acd50679f9c89, 0x42787d8c88ecf6a092cce6b10714f96ac5c1bc8c7a3414f2ec1de01c8143dbb7);
  (0xbf12374b205e9a33e9c9fe3c25a98b65623cc56f72c6823e89c6f208553c321f, 0x83db7e317ffe52b794ab0f85655e9df80f3517ab6ed63ed89df4109354f41b0e, 0xcb6e7e1d94d2418f483d54828cb2291f200a6e8357809053cb4c5fce09392677, 0x13b5d1e03f642af4969f1b17207711e7cb0d6ad6deaff8d9b49bf404b8b23eb7c, 0x8e9c2fcdeccf155bc7f0bc27ddb5c8fa42c23d3c27b1905e60e6f29cb095d50f, -0x360998607e81259c3f270e59b15ce9d452195dbb5b726232fc5e4e430b2e58b7);
  (0xfe9ab825683ccaa82800fc44c71a3e55291df90fc6050d3923a7e6bef703563, 0x20cbd5b47f330804a6321723badc79bc79314813f35b06dc5155be754232c56e, 0x835aead0a6bd792773fa1a41fe0ee4306f02ffe67f69af2931fdf1f73ad0d528, -0xd0598e5648979210f986a9ae24fd2a0e24202c9e0ec9bbf8f6856d142a0840, 0xfd3762ec4c4fd6983107d6fd3884c460bcaf8e1b6ffb9afafde5d71c39d567, 0x628567d91caf439565a4b1126c49ef19be4ae2bda7d499e01a67680dbbe0001);
  (0x2b0079665b226537c4f50c55bc0303c07df8b532788cdc2fd2f81b27f0bc8219, 0x48066ca40416a4e01415e01d2b08baacd137cd9ccbdb62697cb8370a3a100fbb, 0x77cecef498467a4408803db51a1598ff872adfbfa869bbea89bcd92499ad81c2, 0x1f864049d898e9f32938ba7755747e2ead626438b63eab7aba65cd85e8b00b04, 0x73928c89c2f7913ffb32b5a16f378bb2e718a4f76b2f6fa510b6fdf76ab1b5a, -0x696e9f49bf8ad893ca75d863ee4854a9c30d66dbba7a53931462b659e9e57af);
  (0x5377baf81a3c3550a878ad8147d82fdd889a7a281d1ab11c0cd85910c4ea479f, 0x264b77345a77fcb7b4cf4be3a3693ca0447cca5b7c9e974721ed6535902eec7f, 0x6f6d697f3f7a97b2e5dbe912f67febff898f418e76fbe8ff251569a3c7fdcb77, 0xf3d3384e07914ff4a96bb6d775d920a6fb9399974560d2a9b6af433b2035638, 0x1b36db3c3c38e51e330baac653d8fbe2eadd432f68040ab35656547266db61a1, 0xaff641dd1cc1a740c5daf0a3381a6f48747612094f41636b1f44ab851b05b4b);
  (0xe3f2660874b5e4de0c55efea77a424124a923aa5257c390a22461e42aa267d12, 0x10b1e18c3825c6831e61d70563d4cbd873e3bfd494086fb6b37c85e0dabdd61c, 0xc5cccbd9806abe2b1faf634e0c14c1fd8833b009c12551f60197d125b1360b60, 0xb53f93ddda89e277495999827204e88937e0a25eb397120e0c34c024dd1f4679, 0xcaf7c6780fa1f90ef0a4524f51ccb9d022b9e21fbee1359302412025282a51aa, 0x133ba37f77a5f36c383565fdbd00fc180be32a7d0b007020110e0b8b58aadc5f);
  (0x9a76977608dbf79161d2648baea88f6b062fff086ccd5269bf82bb73aec7fa49, 0xdd9d009aebb0ac383d5345ad35d60b5f0d4d7cfcd89cc67aee0f4edc4a7930d1, 0x43f645e15fbb5fbc80c912aad822d00125f56112464c728017a1aefca3c65402, 0x3d95f4bc1a26b573aae266bc4ad8913daf5a4c14af757c4f9ce2a2df4d13c47b, 0x5d32e529fd154582ccdb86d3b7bdaa5602c2fd97b7418739622a46d34abac6be, -0x7ba45e4c5391b929c73e6c453525abc1f5d6d5a094558ae86867ce2901aaf03f);
  (0xc3fb85a849fc8891a14be355dcbee590b4d2c7483f3ff29c7f1f4bd845fc6c3d, 0x21629adf9d83f6487dfbd016456ce0d1ada8fa504c9a0ae2950e52e5b55f683f, 0x265a5d32553ee4a434b3a85630535c29485120f4041fd39fbaf29bff08a3895e, -0x1d77a9fa60bf3dda1e8d3b34550d46735d4b194b3ea03ca412f8eadd84bd06c2f, 0x960924bdbe8018c3400876e15c092b68b90d46d726dfaec9263a33ac3e6a6aa8, 0x90196b057ec51bdd301087d147168c23f3982576c021547404b3279cc260e0ea);
  (0x620dd43ae9538b81bd9cfcec222cf4d394ba0a89db46a3e3cd50a36e5aba779c, 0x3f6d002213f9e3a6730aed991d5b8b49c16a3a9b4eaa67d14f35dc6fdab1a063, 0x5001a554c51d4f2338d9e044ce4081844baa15f7c0a443a59e8f1c673cd9982d, 0x10519e658b10ab6157c6e9613e9ba01404a278c878be3bea00c74a2098b80fcd, 0x258e973c5891494c6decbba2557e7577f397560edcd8c581d8a74ce94975eb6f, -0xb819a321b5067eab5b4c4268a35e2f4de5bd8b2f88d24737b2f907da20329bb);
  (0x54fd55703cdeeaa0e6f89f7252924cdc5575e0f5191c3097bb965e451b7a036d, 0x95bc91c8933c6d2173cabcc9b996435bd8e2c8e5ecac35a626f005e09c79b3b4, 0x4f5b8c3b34412d01f089da374f674fd17a02c6864c6fd6942c2b9a38e1045d36, 0x125f2f503d1a58bb5b5fa71cb78debc97649349953e087ac4a786d65e8c76cf5, 0x1c373ac3a44e5436b2f1165093f453cc3a22aeb2d90b8a2401481be45631e3ac, -0x1ca7853bd5ff69354e83269cc8788f21b1d6897c5348b05b7893b96d06edc9e0);
  (0x48291dc15bda8837bda7c191a4df3e820b18c2190e0ffc26cbde5130bce3e4dd, 0x5060374720d82a945549d5f10d3c3acf01f4c8781645e49aab30ee5ab5129e95, 0x3ba2614db563be820a64e806707dba8532e45cf2f838fac94d2b0f63fb8e9561, -0xda022926efe76fd061a43ae5f6d6671d4f1ee74222b75860493928aac1bd3374, 0x145727574f0fb97a1fdc3905ce70ca98f208d92bf21398bf2dc63b33689d21cc, 0x138d1d4ec0ab740c3282328ae186b7833135981d39aa00b0c0242b05372a2e2c);
  (0xf87e4f8cadb2ea4d07fab18530b7fd3c26340a207945e7df9ebbab1dd38e1013, 0x5d5ff7956194fac166cadb77f45baeb9782383ce19eba312a31c179d04697ee, 0xf4ce6ae60019406f73e60a123b1b8e3fc808de0df7ffb046b801e6612672680a, 0x25433da8ee665e471e8afb8a79850e184c8175c5b2cb484590e265d25d0c7de5, 0xf134f872f7bdc296c170af9d079ba3d2d5ed98f90bfdf74b8d8ebe1daed1ad40, 0x485aad407115342625242f473dc4b33d3f55205d0b0ee2087c240597f6c6d87a);
  (0x1f2941e7c532dd01a65f97e62af584ca330c1b573696b9df7030328ae6436b26, 0x9a283c7dc2ceb4bd187e30b672adb03880c50f09743f555ddc9078f3c07e32ed, 0x7648600809b038feb70740b03fa1b4896d3d4e7fac2b95136b7960ddeadd8655, 0x3b32b97474fb31dd3be4ec6a91f6c4f04f2e6a17d80536ea9fcb5e080ef3242c, 0x3cb049c4ef6ffca7ebf731ecf48326313a0e4e013a780eb6e683c54b9e2451b, -0x120ddcbe78d34ff2ab398eb2632399e27f175f28a420b1d73e3482e1d710cdf9);
  (0xf417af2da6bcf8d751abdaa64645e72b89f48c467e4bfc44cf2ec372123aecae, 0xbd5d0c6d1057c8ad250bf44e4cc877a380664d0a21be554ba27390c19535af0, 0x7c85e1dd6d2cf5bafcb5039bef3b6ccf77acd075e29133780847596d7432f488, -0x21bf2c0c8ff06e8c6825b999d3d3e01ee5af4bc7952e5777897a9e600f30e46c, 0xe8bd281ff7eba269919fc13f973ccb13fee3269a1ae4147389cc15861feaa981, 0x87b3b975c4b501cc4d4c36cc25c5070dac0a155a29e982bac567f3b836e17fd9);
  (0xe9feb2293cf795e6d3f9e0604b0aad6dbedd4a9a1966eab9d694a8c86bc8ad6c, 0xaef1f14befc1a89072acba21feb2484f5044472ed0b0ab067d3d33cad76839ba, 0x2119158b00aed305b19dd46b37d83c71906e6a49d72a9b4ab82ee990ca93fa82, 0xe1ff44910f3471a1458182b3d117ea6d3b7a80347c562b714afac248c9d18fc0, 0xd5e19db516cd099886317eb6b84ed0546e4be27891ebfa30598a1d83b71fa276, -0x9516e1054203deba942ea179056d8811385ddba8a0456029cfc9db0dbccc3bc2);
  (0xdef142deb233fe62d80b6a137638588921f383e89c41d9e50b32a4e064d97d4f, 0xde8b8af239883ed7b1653832f053e98f19d03af9893216489d81db84235f1097, 0x173b58ff9513dd17861f76d3765ca40ef391a5b2eb905f7bdc201841b45d83ff, -0x30ed1d5ba945cd3932fb44aa776c80f7dcaff2759e70a90852e0494a4f5087e9, 0xc227535935d548b4c233149cdcc6914bb0e48d11df2812fff3917cf41c3921ea, -0x29740f46db783f3a714307d5354e950051fd9b899d76ef6aa0460a2e6fedd4b4);
  (0xb0147419ea6b07bca1e4a8b3faff5c52a671f57263af7a7fc4ff373dc91ed77b, 0x77744de3e589cf095163a40899b5097ae51ee39d7ce493ecbfda3042ac7e63bb, 0x7f462d704415718a62a47a924404d5bea683e9ab3c9d143c4afb401679556420, -0x2246da26d0d00eea7049203bfd932362153bdd650a35b4e595df59186d3319ee9, 0x791c2145fb074a6d32a60024fcab9addd9fa69c6d1e718b77a303559a3321430, 0x46e8368b963348d753549f09e70d6a23e437a8e1788b571356a34f67ac527f55);
  (0xc24e571daed63afa33b59c861c94bcca6975e98cea872bef90017038417b0f1b, 0xe80780fe3b5ab548ec276a967f645b70813aec066f22d36b0e5eb31c6b41fda8, 0xf544af3c7deae53a55aa91ff36ddc301cc6bdf2f2c43a58ef752eddb04a00dda, -0x861a5933be8774536125a28e075f1b170d622ccca5b21b04e289af22ae5716, 0x937ad40230b86c35d6de1b2e92c31ef573c35200525b817f8e975ab0b57e99d0, -0x5571ffe29afb73000ffbff49fbf3dace4174a392b6d9b34df3df8bb2a65229b9);
  (0xabd08182991a5d384ff09bdd61cd44e275c8d58b5598015c2ccad599929168a3, 0x3c656a022e0b5ca7ef2636e00f45bc4b421a152f5447b558881e808d80278473, 0x2dbe93d9ee4a80f2747c382e8c8822af040ce15efa64ec98fce1c7a81bd6a81d, -0x12daf842e4530a3cb2304c6a83c04bc85b675f7dd4991fe9ba0ee548a96bc0a24, 0x735036d72e46e44d22974b1d16ca5ea56b21ec70f17819cb55ea7a1e0bdd3086, 0x73310fe146390c11e6b6334fcfba7b90495b1ffb30413518829d4748117f04c8);
  (0x47db68738cc4b19912ee04c7755bc65425dd16ab462a0aaf5835d8e81e848e11, 0x3b4f978b539c5176e9c18fa23c09ca5dc54f055a6da60a21d24a418323b93d1, 0xe77eed9d90b16c6654355404f3c90eeceaa0c2aec60057fac5b50478d5f35954, 0x1062273259b66b4ddbff7d6eb43841e88972a377b769d0d5cb8f49f33dbb15c1, 0x142b6ffbf86609925ad2122b106466fc5a7f75028aac9d394ff8378d3fbe0277, 0xfe98547aa42ef2162c499a29963534a0ab9590aa7e84d44421bc3b1a3a88011);
  (0xea458b4d1c2af8afa19d3da23fa0ae068b3d6ec5cc1037b614634d2f66b60b48, 0x4932e039492d3df417362274af7ef9d9be7f44b1b769c236e36649bc663a6316, 0x7e600209ee0250fc05f605a0efe69779898ad9efc91e5ca528dafd8d0e22927d, 0x1a7889765a37b292bbee8c8278024979e1573a64075957c9237f6cbb73659c11d, 0xd663358d5adc919bc1225434c5dd7e2853badc8885f29424940a69f83f384f88, -0x3f97f5ab83f2d4c188b2794c8e7c51e230d9eec5c31a5308d99ba5cff0ed36f9);
  (0xfe53b126d7938e7e44f6aa4b12f267709ace6b7a06745c9d896d3d372b58e344, 0x2ed81f700366a98dbaf9fdf23cce2cc4b6164d4e6a05cb567e69f311f4cfca5d, 0xe0447e42b97c789353da56a812ed9cb35630060050015189323e664e5540b8f6, 0x2d448313f849fbacd45af92d82a03c9800312770e6ffca59b3c4fc79ebd47bbe, 0xfcaa2ee56d8f546fb71c491e0327850be0a45bd6b38eb651d7fcaeebe4400a37, 0x1a2ea8f0f371d66f68a94010ed0ec7bda38535ea1fad4e0f3a7cdc931ccac371);
  (0x58893407838704841ba2ab4a9da8c4ee8cba4fd2c7dc46e6805a53bd888d2d41, 0x6c5464c6997928e203c63d0cf0a935e33ab433e9723af66cbb5f723e23c6f448, 0x5b7be4b7deda1de31473d012294199dd6829365993687dff0726dcdb63f8af90, 0x816856020a1bea756c6c396afbf9be06915e8319c00310a7dfe051ac97689251, 0x1e9e9d4de50aa744f730ca27326e7a10bc5b2982c9d166fa9bedf2825a7a32bf, -0x1543abd5eaff2c9e84c0a81550781dfecce43dad25d5491399c2d6038deb6ef1);
  (0x70bc0a24b61f12f09df5f13cf2df95f1045e2910c435ea479565a8fd4d46ddf7, 0x8880263e61ce4801b7830f3698691a9626b48e93127fcd9dd07c41f2c4501194, 0xbc858788a4491379c1f23cbe82404fb3f8e554f517e034ed8a270f05ea16c45a, 0x49853b75fb38d217e08fe5d8dbb11d9a0406b6dedb5df54fca9d190b4064403, 0x31a512ff05ad91b4836787070253a4a75e2151770c0c23b1d3ae528eb9db1e0f, -0xc67d5e43b5cc5b95d09b0fad4f6bdbf493ee3da099f1a9a0ba12840a5e966be);
  (0x57f8ecca90e7156441706c3adb663e9696a497ed87a845735fcf269d29af4268, 0x3621399aee9c8e8c60090df9e6bc01fb54f9c2394c620fb3c964d816d8362ac4, 0x222ac2a13969e2eaa7719439f49776e2c4e5482861fc54fad233ce43f35c0095, -0x58c7d8c3a19a50c166c4570b2eba5558262115cfa9f940f137dd96b16e589390, 0x1e3b22fd51fbebb6a4dc96e8a67612afb0ae491310aa1ad642f2f1783c1e5354, 0x1c4e5a917a2aa502ca70c0c4c40134675c166b8cc240755132fd480445417a51);
  (0x3e38b50ea0cabd6f51072af7c851729d95a8b382b3089def9010371d66946ebb, 0x7309b1a15d77aef5fbb1defc5f06c76849b93f8fc71f56e69df8fb5655cd2586, 0x66892d2ac5c80d09cadbeed143ffb7a737efbd5483969ca732a5376425da4a6a, 0xfb5a5dff4d583a4438c7c4f65abf2f9ad119fe2d69d29e90e56adc6dc2e992c, 0xf1f8442cc563ca976fd1a0e761c8e951e5ef76d3bd2afce1d1ec422847c7b69, -0xecdcaffa815f6087fbfdabb06242d23e96140a5a11bae7b9c2289583fdb0075);
  (0x9bff359db38fce23f8b8670081f50b8e946e24d788be0998194074e00f3e8ddd, 0xb96cac1a65405d5381e01fedff9d75c742779e42b34871cac1b9155485150ad, 0x1ba30db3c8adf78951b89735f51aacb5c5b9006603206d0de44fa428176ee539, -0x1e1e94f1f0357f796259c7cf7da9363dca3840e993a97af552a3053bbf4e0568, 0x5f0f0958d2d6899b8288f4417d35d5ff861327a5a73d5e2934c6680973c84110, 0x3f09b2e7f08d5ff463f47eac6281a21a7c670442e8fa02cf8b1c94d4e6c2d632);
  (0x33608d0a8e43a6194cd4c55991f697656875519d3986ac15b5e38acd00612f8f, 0xdb072e4adec716d4239c75620212f3e41fc0162f576802baf0695b6cb2517714, 0xe45894aa25b399772c3b8c4dfd154de2560cd3a3d3093bf960bf320d18efbbeb, 0x15825a35495d74ec2a677e72e2f9ca466ea2bc60771a010bd86296e793796e91, 0xa4f9c9c4a4e481098e65cf68398e37fbe2ea7c2cfc03e209dd66e9a5986a3fa, -0x29a1a0431e31b734485da527126635fc09515d0e087eb8d08661c96b1d3bf56d);
  (0xe40bd1a9fd51ed859fc0e18dec0bb1b6f0ebdc08d3e71101c3a0068ef06db67a, 0xbcb74d1ee7ae8398f89516bc6e03065d23844c125a3936e0e70000feb5d12813, 0x6327beecd55abbf909c5e773dc804fa8e3c1c51c7bcf62d4299bda0bf9a0fe03, -0x9b5cfdc33f7ceb14a3df5ba7d095b56e184f18469cfbf8509796b66a7f87ebb4, 0xcb250e027b8cb4a0a4b61f50544dabc8a8bb652cf41aa7dd5036955cdd8688a9, 0x1b008acd2c84b0dead46852656baa52f0914e7a956534766ffe9fd8dd041338c);
  (0x2b234e9c7dd1bb38e76beb13cfee8da06af1c877d6e4385f4ab3bf73675ead54, 0x781126d254b3ee7520a6077681a8a05cb6e0a1d260590ecc6e7aa93b1191740a, 0x64f434398e29f3312df75567093c5e3d4c8463d96ddbd555ba5918aa4eca786e, -0xbc993fc97cc22fde7a0bfcbe64cfa78c2154181b38f2dee2a0e33cc35446e40, 0x744e14729329893b2d6df838be1022e5953c7ec00c046434bb92dd3029fe98d, 0xb91603aafd0394e9bf90170a5eceea5c919529d7370ec84cde47ca4bc33bdc3);
  (0x5a7735edbb489b2553b244b8d12be052b0097bc69e0d5469c8b47649b8c5895, 0x49e4042585c78fb6d4901ee87de1276ad51e29718aad42ad8b48ff01d0408aa1, 0xbb2f357d4e3c8a7b4bd51c2e91795431764178d971915f58e2f99202309d3ddd, -0xa47aa4fd7d81c4a0aa6684faba27b8e0950f06377f3bf7d5877de83dd6fbf920, 0x1ff8096e560f76e6d93d0712cab8d2cc250e717ec975e4cc646cdf722f8f04, 0x10515ee618d23b037d0477d62405feb2f079a2f15510de81a55746ab45d1552);
  (0xdbbf0bdaa179707dbe15c5897f44a15f1b2e2975bcf9aed3f96d46d7afc7cc84, 0x2a10c3bb05fa8ae1880573e3380959fcf4f3e0e23e97ba2d08dbb2ea72fe8e21, 0xa62b942d717bd3e44fa5fdb2f6647ef1326da9e8e41276d842b012708113d125, 0x2684c6aac736276ffbe14bcdd9c214111ab62097d9392ae0b45ccb3144015272, 0xbca06cdac10f3e44d733420d505ceac1042e2b80ebbd5a5028ea3f4ef1f00ba8, 0x1b5178316c861fa03216e63dc2530dd9d4b830451d81fd74a1a501eade20c57e);
  (0x9bd4eee040cc23e505d05dbc4116cba313bece42d3e467a20aed4a2aa34b7c7, 0xf8fe1fc303b1a6e6339cab00c4a9315b5d16a72ef4730f9707f2fe79e1c1468f, 0xad47f2b01eafd9b6303cafca3e28a29428c66a23917b6d7b682eb1fceb040259, -0x817b0bbb74ed19cb3cb800420b08a28dbae78fd569d77c6699ea6ac94e9d6fd, 0x5edb8a6010c8427fd0bf4ef28e7d5a3f68323b0896af40f4f738d7f89561e0, -0x7df5d45efcdc47a32c6ef26212381301eedc9a5e63d37b567813bbc73cc1300);
  (0x4c1e5048f16f1e19d89845aa5a8616fab345ed9103684f27936cd15be40b3532, 0x7b14e28dd5e060f154d4181ce16731f91f29ab2bfa118075bcc14a4266f4f637, 0x3e1c00591cfef37f2afbb2525e7285a21e1ab7f66ef357776708f1cc1d52e55d, -0x26b8c9d2f19d23bd2c64b12f497e3d00cbc5a3ec6f509037e7aed747bc23eda8, 0x16a2034239a03b988baca9de42a1160ff13dd12e26de483b23d536d900dbe558, 0x257026fdb94e8e1fd339a027ec2a67c95dbc72cf6282ed08df76650f3e6548fa);
  (0x45854047054b926688d68ad466c9eda3a5cbf5358a832a3f59f7de8e023385b8, 0x5f8818d38f7584dc48d1419ed12dfa72b99cf885fd73981b4a8d7f474aa15bce, 0xbd01f64fce221d9e5331318b06425b35922824773d83787f930424cbf9f47678, -0x8fcb79c0920939b70dc9968307c540ed68bc0dec5e9884b0184eed680dd72403, 0x12e11a0222c9d3cb1d88591509ac8968e52949041f4f9290686f98dc9f73a704, 0x77b496ed9cdc90b52a583e8af4a0cec3fd16528a921f8686b63a8c014b350e3);
  (0x339e35bd4797b17547f9c7b75ec59bff8d95d604d8d3cd8002d92f85b2349c90, 0x9dfed4b69dd2a7bded8b882d572841adf4dbb86e2db9f06688f9c05dde310171, 0xc874e465f978c309c2cd1b488f2aeccfb7311c8aa94aae269099cbcb8272be5c, 0x4af3769689391346bf5720b58406733ab463410ebd46f9dfa1a82354b81f139, 0xa686b2fcb72bb8b60ee73312ae962c7c71285899b36daa67fc07d1523b8545b, -0xc9841d2f606157adfb5485aff225a3e27757dd4d09998b978f8fc80eb634f84);
  (0xf3f911d5ef5749e5937767256e57b901b1d41d3f90767f5bddb7b8e8df71b9f6, 0xe30c0ff0b04a56cbe347c94c7f0faeb53e93199b9d3049ffc384452079296ca0, 0xaa2e354f429ff05e33998ada3bfd2a2a5390beed079dfa124924f637fb4c3d00, 0x598c4d341b898b5e726c44ea7a23a58d3ca8345d0d80dc97a49d39bdf6612ced, 0xe882ca2fd7c96aa955631b72ef67b68cc9c575a5a34c22c02ebfd23e44ff8e62, -0x41cebde6508399d7df84a52758622852e41b8dd34552f9c8a6a40ab236ffea06);
  (0xa323caba6b2e1e6e1f3e588f4fd054ed1bcec1419afcc76b2dd527ecbf4672da, 0xd63a71a2c397481f5bb9e8a6f0f01ee7caf4f5e3003d50075b30f6baaec5299a, 0xe153c60d86bbda44d3aea7338feaa7bf6f00024205a7b06525866a4cae4d9fa6, -0x4501435a3417ded7befa509c50e23993b53209bc58e7ec99446655a4898253a3, 0x67f6992a7400c24141cf86e5827d5073897c31274e02ef988e8a92a8da8168c4, 0x82b429afef1cc9137b1b2a602d3e72ba7f1ef352de50a2604a2be0de607aef6);
  (0x89beaa6229c03d2f3b74e0037757ada3525be7f9b4338dc3056b660d679195c5, 0x8375bf375d21049933b0f8fd5c49991e9d7c90af9383d931852cd6ab3744dfb3, 0xd6a7e761260d239bce1b00f5c1fef22fd259d0c6b06f240a6ca6cfd87ad150a4, -0x12755fbb6e6a2094994b602f5bd2db1178d60f380b63fa6c52f54d3377ac39470, 0x4a1da05e6bcc3feeaf001055f06545447369a9297661704e5478b468a3aaf832, 0x2c88e88e40d29cf1d2eab026d61a270f889f8d6b4c6385910eadefa3baaf5a39);
  (0x7d7deaf97ef66b7ed6cef54a59c544f8c6de5821c79c056b05fa503ba2fde6a3, 0x6fe05ef502afa3d66dffbed81519526d5ecbf534f424f1e33078af7f10e25be6, 0xa2538dcf963320dfb91703d8f179dcf681d4ec232970eefa9096b365c9a3eeed, -0x6393832081c701e9fef611b0ac3e6c93bc3409cccd08ea3b4402ac045fb98a2, 0x3d843566f54fb0e18e7c5e19fda73c5da371a26cdbac8f44dd10b9a78753160a, 0x99991ea068d2bf53fd1bd8b325f196242ae06ed240ca6cd05d101a8f1ee4676);
  (0xb994cc8d205f1fb11c968b52597e85628abd7065eed8d4fa8820dba5f8fb7137, 0xa2c1448186da8b2c3bb4864d81da258dcaf85b3b34c8d0fb999be760113c3ff7, 0x4ede8b105a6ac0327b370148be0c2067d7d20e0915a72a020a16aef49e661127, 0x58ac71fdc9409098e92430d44fec19ed906050f42efef6bc246b798d5d74276a, 0x868866211f68232ee77dbd5c58f6487089f9ee37f4eb300e79875b3a5ec6708e, -0x24e2188e83f8d624e9e00267067935dbdcb4c68fde18cb382b9307e64e3706fb);
  (0x5911a032fe234f3919ed18630aa571e15837ea1ebb950edd0ab348565aa9cb05, 0xfa30460a016caa0461b5d67667d6227b398ecd06c616153e4fa64733fc5636ad, 0xe3030b48c15ffa706ab979412bde6580768187acc2f0c6a4723407e1c6f8d8c4, -0xf4e35cb8ebbf02c3c63eeb65c6ef054a33462bef3b7549d7659cd1e394714ad, 0x1efd429a1fba159a9eb8b53cab3ba51d051778b0e9133c4f5ee33f08a662f70f, -0x1e6b9c9e581cbc71d6b31bf6d35e23055a50b08c297992e9831c9d3fcbcd0639);
  (0x81711b5a5c6fdc041196063205d7857ce8dd1b9f70aaef94975ee766c97ecddf, 0x19560b5d48ef67c1460508af693541999d8d529b8c540ed97e36f313ec70aec9, 0x464dc2ab5186e610c6c0a3e79219cf8c4f89993608742b47438f5d872e8cb041, -0x1f7f54b1f75836dec6e01017471d2c9bcd330a2f0dd310f5d10b5018314ec2183, 0x41732f8a39da85e10dc0de455a19580b5bf200f13d91817f7e69c46cc072069e, 0x71b14feb514e12d0c3124ed2c38a882119e70b9c61234f30c1d8eb75c8305dd7);
  (0x19baa1f96e965d58a2a5eafc192f9b008dc18c50fae60b6f4a14fb151cb67144, 0x3e2c825a254dca51896f114df10274eff83a80e1a213b2f305abb90e244ee57, 0x1b187da1ad4a5f5727cdba26a49061d38ab24c89ebe7836a82e539fad211d326, 0x963d02db24dac3613f1d488caaa791d11d85c85f6664519e6051a9dd7c4d4f6, 0x295fbb27c89c0dc664164897d42d0c7068ecbedc07e4bf82f0e8062ab8e92ca, 0x227e4e1a95aa504a993f9c4b7b394fa4f987525e61db7fcccc56b327df423a1);
  (0x23a1024a578e4be4643071fbd70fd8b2ce92f0dbe9febf3c8925f44b0f79f755, 0x1d9fee6a1b61cb66e8b9c964c1009190741a5244e19cdb9758eedb71f8ef6796, 0x2a2db768bd8d229f974f9220086ebee06e7f41c5e262362b58a16c55e116848, 0x75d7adfb733efdff3b0dde9c3e29ffc1b9d660fff921781d2679445f3b58b49, 0x4f56be4357848b0de10bc626d545dd2b0170f46b2da658ffadccfed5ebffbb5, -0x3950c6b616415119ed0a1c608b0c647e2722feaa9f058f0ce4166c134832719);
  (0xf570494db0edf3d4b0b9c73dd65e6598abcd04ba54ec3a736aaae8e2c68052af, 0x834e22fbe4a57661b10e14f576596e3b7815249fa2ba4e965765cde4de8e62bf, 0x7d2a462ff41d3e30f0cb8eccd353f035b76bc056baf0157ddfd63570da0e1bd0, 0x55764174eea00f3ddc9d8dcc8f0817cafc04b5628f2d07e6081409c592da6e79, 0xeb501d8eed9fab6612da4118c8db82aae1604b08f9e469a8bd3926edb92f2c26, -0x617c51a40e0f79be603d93e3a53d5e080184f780eb6b25bc1d220de526f6205f);
  (0xfba711b5f313414dfc5ebf624fd4e42c36e6d991c96627ef9ebb959a97c8d60a, 0x77a0d8f7efb2b2a4d006eb3e9ba469d0cec9fe218571e230e1f3625d0fa21c2, 0x70f9021a2b1d2d5d0ec601de1ccf8d9703f34cd2c4f1cfa2d0fb359d1efce3a7, 0x2c091525bd32e400ad7b590e412fe469e5076d8a48740d2610a561cd288fb07d, 0xf76109c2e74490c84f555220bd8d561fbc2d2af5e2b82ad3c50862f8344fa424, 0x79b9c0ec595742e49e7b44b5b56536c67848622a6b995b7ad17d5044be4ef2ab);
  (0x1b15887d595ebaf9c9f0faac0381828fdc7c8eb6d61490349e2e874bb46fb23, 0xe4b66977e50002a4030c346408c2a66530f3ceb7ba9ab382609cb685a1246ad5, 0xc1a51ba7fc23db639516096b6a6986d48913daf3c67119e43c7ab0c913207c84, 0xbc61ebe6b2da01d8d883dd95e7c3dab026deae2f63dece258f8f36ee22bf54, 0x2dd8c9a1e30115069f2f5f82f0b3cef220b7d5d5e60acca0e4b0849283d8c, -0x1767f999715b117f29d31531590c3fc9fa6da68cb411c609f0311e57237c9c4);
  (0x33e5930633b1874775804e632ac3a8b0565b08cf21c92a5361fbeb606db4130b, 0xec5145466b03c82454f97cebd4e747dd16dc72cfe4ffc0c5ae57fe91b642cc, 0xd9e70ce6492a678be8f813b86151cade8f3534ae5352cb58655551377248856d, -0x2167d30b1accba32b3a819efe566b8461f7afda871f5e794a3aa87089364e7c93, 0xa854674d6215706d6c7f6156d9c138c6e1969b67f256dd278b724cdf6fcf643, 0x2e2d896c4b80663906d737fdc817df804b9a0429b01a75143585fdd253d732f2);
  (0x4fa23c02b2fa8ce23cf13d7a40d68fad2fbf5bddeb960c44d4628b861db0b9e4, 0x775ef7c1b0b9942cbb19054ff8fac90f9a4418038b9469ff192635106161fa99, 0xdca69a97e7009d6c973c11729e2cb1b440702ea4200244989faeb93dfd5e3e38, 0x24a81ef61e3434cdc59b8509f69d36e5aa96ef8297ba354452b3d9dcbb301696, 0x18c587d9abf26bfaab07a67f5f7b7bca0977d31f302181f73b9cc0665f02b1c5, -0x24d871b1de439f1220828e5246a602aa9f9f824e601f02bfe3d82605245863f9);
  (0x83dcf632523eb7cf042d1d3b02847d15fe796e97859921f36f57388565de6ba7, 0x8622ceae76f0e49966c3146acd9a5c5b8938c1be706fb9b1e8a471db763a8a4b, 0x9d87e0842ee4b0d3bb6f5cde8e3b40a2f5540ea748f51368bd9b530d05cfe8b6, 0x3c5320453e81e53901cdc2d1baa379a9312c3eafe02f7b3cc98d5a64f940127d, 0x43ebe2af936e4bde8e433f7722b94b93a9b7f37cd33b29fe248223f3d4017674, -0x79af57af46e7f486b631bd4d3751b8d51c84bf6dc7317697d1a28c88a7a7b0c);
  (0x9d274b22cb35ac34cca56437efe2d9d42511f55d0c68d53989d9c8c79865e3c7, 0xb7a4bc4fc19950d6622100088608056efd147310b8e781f2b0577e36a7cb50eb, 0xd67d3b1b1941fe669e96471a76e6eb0eb493bbf6fce0b6961455405b0bdc9825, -0x96fbc0cbc27f87b13b66399cc23ea48f29daf40444620af7bb6d3442a3dc30c, 0x60793830a7e7275f49900f9ce830c305eda6f17456c1ae61713090da9bb28195, -0x1e64480ee987e2f7bfbf4da7df19e23b2e614970fd641c070ef0dd0c2aad2d7b);
  (0x8c8aed6b688093e3539ee960a8459d9e27627366385507a7037653a7190a8655, 0x7d62add331ae9c199c79274281219c1805f18f429bab14aa4c67d907114417bb, 0x4b553d2928142ded4d677deeac8c3846e9cd9ae1ba4a99bcd2671b91ce2cba97, -0x9fb508324e673db940324a7d7842e325cf5293461a9567d4e9e750b3565cf359, 0x4d283f124e4958eeac83382e63e9363eac336e31d3a75598fdaa854eb3fc8ca8, 0x1ffbbd8f86a7673a9cf1e75c09a32a52d48d29f33bcb21fa8938967a334b4934);
  (0x19cfc8230614720079791e07e1d8841f54e15dca6581086a3d8a1451a72343e5, 0x6b464769c64fed4465e02f81cd8deed6e8a19b6e7f65c53c9ac77fa6637fc0c, 0x8fb4a72e7acc833d002c53592d57d2037379ab4b9dc54d6a7c5a2a6d132b2b6, -0xa90b9bc89fe337c1942c9e186e067f0f2466641df9e45954c65a176e84ce8d65, 0x29a3dbc1c4a919f105afaa4996f218304672e5d0b156c7018546262d7bc8297, 0xbf758dfc266d35b981f1721cadd480fdc020afa199cd6ab59b91315df0a75be);
  (0xe0818abcdcffca351fcaf917b72b24324a31dab0859188e8ff551c0fc0f824, 0x33385393328be7d8f3bd3612aacf3700089a70f591d28e5893511d6d63c6a951, 0x8e6064a042957694e54f24cfe198b4eb792db949bcc61505f18717511da0efd, -0x771a9fb25e8a6379895e1ce03632c064614effc9f72cfb646ab1361075de80, 0xc4e2f457a046853fdda825e5d54f98d28044561b59585932a9cb7f27c2e7, -0x2709f7d47700937fd745a45c20a5a9a84ceaaf90ab0a6d055ccb137ff3e6a7);
  (0xce32cfabb8e6b6b89412671fa3425da0ab745d8766bf33e13578f4b3c2619264, 0xb4656fcdf31b1b0525521792713c5b9831fa91567e112e16b3dc250386e195a9, 0x2513e5120b64512606fa55f5cb87a099ec83f7f7cfdc53444fb10f3eb86b33a0, -0x1068beaa7388f37d6a66ee2094de30578ad87b3aa0b4ffe0babb029d6aa9bf7b, 0xa615d04e251eb06613aa85c8f164ffd38a16c308b33dda93107844e16a1d6885, -0x680bf050eaaf0b1cc4f4c13c60b6df810be2e11fe75884d10b86e43d335f98bd);
  (0xce1074fd61fec7f70e2502e3f614bd5c8147503f943272fc97bb2920954e530f, 0xf58bdb816b98e9db534d8663c80f76a089ea5a9ca0de9deae87d4b5cfa7070c8, 0xd6f5cfd0c34eda129939990b89cf611fe6841578495aa5f4328c1f60ef65fca0, -0x141ab9f37fbb7af8a6fdf103a9e67a98962cb9095298d6963830b4467bcbbb033, 0xa5de7d569ed8e54455f789855f7894fce28b2a1eb1288cd3a6fb7e1c381bd607, -0x34711ad70ae2ed15f68ed397dfd0054a6dd070546df26df1b6ec8c7b68804ed1);
  (0x9dd68ba394f8ff01b4d099b1e6dff7aebcdbd8a5e3bd1dfd241c19ddb16d410, 0xb1d7b5c70f1855c89bdf5412f0ec3b62e34eec5d1a66aa74ca0652972468625d, 0x595a7b163c7e62de4331b1ef5c69035e3c60bb4723c0ec0e364b411b31d755d5, -0x4e2b0d70f4928dbb94cae58992797171c7044929b5def0a36026185776b363f, 0x6150db146661855fdf5398d4fd8b899c16caf6b705018543da431560d20df5, 0x29be38a8e81a63f32786ec115fcc1ebe356a16a533498340e79c2e27a29567b);
  (0xbad1853dd4bea5b5889f91aab052f8278d2a330d9f053c5467adfe9ce02b6de, 0xb9a575d51adbd2b004051740ad3a4d80bcd31c74cdaa30a6c1b73e28dfb9d20c, 0x9083f63fd90de8ebf6f26e276cc12d3db90e912cf238b01899a975a1000bf165, -0x16a7d6186816e74abca4b68706692d1edb92845ab980ce47ac1e0efbfbcf40d2f, 0x88552118ad73b61388c6dd1fd955d798ae138c50f84ab2654d1b3b8925043e, -0x5b1e093c74de59bc9a7142f2607634b64f25cb826ce779125c85219fab8ffc);
  (0x4abfc3c583b14e6b5a3e36933d491531b6853a8aa2d8b2419d456172156b04f2, 0x147ec111a6d8152d9eb474f0a457d5735c70d8e87ccac05db8e062311ea97fb9, 0x2ff04a4b8f5311f5960fdc0ccd18110ffa90ca0540a0dd94f82a08212c52b1a8, -0x13f7ce16eed99081529e77a27f517ea265966f783e66d7f0757e9a7857c17dbbc, 0x15d36cd3e69382ed2475ce25a0dc0f2cc39abfefda05610b2529b5d4e7631133, 0x3038e66d44cbd03341c80854a64a05399f90f3400ca61eff88a5babe508f0829);
  (0x9ee558f80d2d34398f0760e9a130bdc34928342a7d936b74e1ec0ff1ecec0484, 0xa37dc0434f0c7bce538c253efd488655377399fd0abf9d5eefeb8d124077a5d8, 0xad3618e4b14939efea75c571d48a0bd2836f9ed461098ab2f174f25c047a698f, 0x3cfe8aef9a7de9bed3814ce799b0f8342a3cadb75335ffc94701da568b91481d, 0x629fe74a7af6d8bf17b15ff735496666a8fba02417378dc427272f18010e1199, -0x58c17d4d23584b1847303fe7899d6daabf48369254025ba35a156c7d1c2b2f73);
  (0xda0f64deeff5fd569d232d115e02157a436db12c4b9d143da55ce21700419373, 0x3210cf2eefc28e0a9ac754c6d64fbf11f73ccc8889e1b81df9e01b60c6c9f378, 0xf61580896d8bf448322ba70038fb7b94a2397c1afe52c9cdca33e83bb024c884, -0x12272a94bfa3291da8f66dd2f48209fee23799bf32059185bb670df6c9726ac6, 0xb9be38b8aa8dffe871429b437c410fc4838973adf13f2277ba32e10bbf113541, 0x609d975ece4d4144e4bacc6a49729beefefc3d785148a6d5db08c93defa14ecd);
  (0xa11a89ca51576c63c8cc28e1d36e1b2c8d6be6c88273b94d66314200ff20e2ce, 0xb7ac0c3de7a970f12df0bd851baf07e14e8a63c0af2e9e224e4b3cfc178db3bb, 0x1d1b1db6f6a00cc7370ab38b2668df52f9a32d5124dfb73efed9fba5f6abc0d3, 0x2b3b940b649788dc82ece606211de97205656b7ed0ecee2c2c5d2c1a477892c9, 0x65626410c192a70b90a7dfb9be89ae2d71cc3cba4a1219200cae69d7f1e1132b, -0x54147b14480c514547b17b25628aec8d398d023791c392ecfec3a624c7cd2401);
  (0xdc5144bba6750aee9904496b25f70f833c7599dcf1e5da247ab3b672d895e92e, 0x37e9a8a69fc9952a70be4e0ef98dd19f33317f9fd6918119e4e9d3489dabbf1d, 0xadde90ddc71e548b5ab62e1b5955e15343320743f2b257c0320da3902c635f83, -0x1593d31868600ac2b6a5313f78e674dcdc6aac590c0b5f05e588611bf6fb07937, 0xbd9bc7ef174cbad5cb04ec74df53c72e4f6fbfcc7b6d72fe2501e876fbb2d071, 0x6df39c64cd27832c93185ba52449783e9c6d23b8361dba3fa8e6aa594080708e);
  (0xc858505ce359b362d1787e097dc67ffd53bd854334dcb3a6a42a9f2496a1aa14, 0x3b78ce563f89a0ed9414f5aa28ad0d96d6795f9c63, 0x2ec11ecbd8deeaaea41ac615888637dcbf93a1202783c8632b24231c2d6c07f3, 0x312ff7605b0cd780490a6806e50a0e99be0f06efad011dd4d2f236ad10382eb8, 0x9cca1c087c52a5c1fdbb2d46d051d243127982a215c28e7cf97e1575c5a4e3ea, 0x2bc1d5a17470df9a3176be4ec0717e7fbe817d5d30668494bf89121639789c92);
  (0xdcaf64a8f11da16e5c51bd8c8a7bf055a4a5a1648da94c4ee93d0761152906e6, 0x76c39f5585cb160eb6b06c87a2ce32e23134e45a097781a6a24288e37702eda6, 0xc0039b9384d6e74a23d2d9a5717d5806e925591440badfe61bc050b1f6e3d9c2, 0x509bfdbb0d0bbfcfd1ad36655f70b3717e08f2bbf63f3ff8dab008737836d689, 0xbe3ded2d24f8ffd4e3a99be37e27c04726cc4a8bba23c2c09ced711eb566aa38, -0x66617b5a34eadd38a4ae8971a007782b331070b8f6accd8b31b085912c134527)].

(** q * n, in the cheap form *)
Definition kn (q : Z) : Z := 2 ^ 256 * q - 432420386565659656852420866394968145599 * q.

Definition third_ok (s : step) (x1 y1 x2 : Z) : bool :=
  let '(l, x, y, _, q2, q3) := s in (l * l - x1 - x2 - x =? kn q2) && (l * (x1 - x) - y1 - y =? kn q3).
Definition dbl_okb (s : step) (x1 y1 : Z) : bool :=
  let '(l, _, _, q1, _, _) := s in (l * (2 * y1) - 3 * (x1 * x1) =? kn q1) && third_ok s x1 y1 x1.
Definition add_okb (s : step) (x1 y1 x2 y2 : Z) : bool :=
  let '(l, _, _, q1, _, _) := s in
  (0 <=? x1) && (x1 <? n) && negb (x1 =? x2) && (l * (x2 - x1) - (y2 - y1) =? kn q1) && third_ok s x1 y1 x2.

Fixpoint cmul (k : positive) (c : list step) (gx gy : Z) : option (Z * Z * list step) :=
  match k with
  | xH => Some (gx, gy, c)
  | xO k =>
    match cmul k c gx gy with
    | Some (x, y, s :: c) => if dbl_okb s x y then let '(_, x, y, _, _, _) := s in Some (x, y, c) else None
    | _ => None
    end
  | xI k =>
    match cmul k c gx gy with
    | Some (x, y, s :: t :: c) =>
      if dbl_okb s x y then
        let '(_, x', y', _, _, _) := s in
        if add_okb t x' y' gx gy then let '(_, x, y, _, _, _) := t in Some (x, y, c) else None
      else None
    | _ => None
    end
  end.

Lemma fn_mul a b : fn (a * b) = fmul (fn a) (fn b). Proof. symmetry. exact (zof_mul n prime_n a b). Qed.
Lemma fn_add a b : fn (a + b) = fadd (fn a) (fn b). Proof. symmetry. exact (zof_add n prime_n a b). Qed.
Lemma fn_sub a b : fn (a - b) = fsub (fn a) (fn b). Proof. symmetry. exact (zof_sub n prime_n a b). Qed.
Lemma fn_opp a : fn (- a) = fopp (fn a). Proof. symmetry. exact (zof_opp n prime_n a). Qed.
Lemma fn_eq a b : fn a = fn b <-> a mod n = b mod n. Proof. symmetry. exact (zof_eq n prime_n a b). Qed.
Lemma fn_kn a b q : (a - b =? kn q) = true -> fn a = fn b.
Proof.
  intro H. apply Z.eqb_eq in H. apply fn_eq. replace a with (b + q * n) by (replace (q * n) with (kn q) by (unfold kn, n; ring); lia).
  apply Z.mod_add. discriminate.
Qed.

Section Chain.
  Local Open Scope fld_scope.
  Add Field Kfn : (fth Fn).
  Variables gx gy : Z.
  Hypothesis Hon : on_curve secq (Some (fn gx, fn gy)) = true.

  Definition fpt (x y : Z) : option (Fn * Fn) := Some (fn x, fn y).

  Lemma third_okE l x y q1 q2 q3 x1 y1 x2 : third_ok (l, x, y, q1, q2, q3) x1 y1 x2 = true ->
    fpt x y = let x := fn l * fn l - fn x1 - fn x2 in Some (x, fn l * (fn x1 - x) - fn y1).
  Proof.
    unfold third_ok. intro H. apply andb_prop in H. destruct H as [H1 H2]. apply fn_kn in H1. apply fn_kn in H2.
    repeat rewrite ?fn_sub, ?fn_mul in *. cbv zeta. rewrite H1, H2. reflexivity.
  Qed.

  Lemma dbl_ok s x1 y1 : on_curve secq (fpt x1 y1) = true -> dbl_okb s x1 y1 = true ->
    let '(_, x, y, _, _, _) := s in eadd (fpt x1 y1) (fpt x1 y1) = fpt x y.
  Proof.
    destruct s as [[[[[l x] y] q1] q2] q3]. unfold dbl_okb. intros H S. apply andb_prop in S. destruct S as [S T3].
    rewrite (third_okE _ _ _ _ _ _ _ _ _ T3). unfold fpt in *. pose proof (on_nz secq _ _ H) as Y. rewrite (add_ta secq) by exact Y.
    apply fn_kn in S. rewrite !fn_mul in S.
    assert (L : fn l = tl Fn f1 fadd fmul fdiv (fn x1) (fn y1)).
    { unfold CurveAlg.tl. assert (T := two_n). apply (fmul_cancel_l Fn (fn 2 * fn y1)).
      - apply fmul_neq_0; [|exact Y]. intro Z0. apply T. rewrite <- Z0. apply (zq_eq n). reflexivity.
      - replace ((1 + 1 : Fn)) with (fn 2) by (apply (zq_eq n); reflexivity). change (fadd f1 f1) with (1 + 1 : Fn).
        replace ((1 + 1 : Fn)) with (fn 2) by (apply (zq_eq n); reflexivity).
        replace (fn 2 + 1) with (fn 3) by (apply (zq_eq n); reflexivity).
        transitivity (fn l * (fn 2 * fn y1)); [ring|]. rewrite S. field. split; [exact Y|].
        intro Z0. apply T. rewrite <- Z0. apply (zq_eq n). reflexivity. }
    unfold ta, CurveAlg.tang, CurveAlg.cx, CurveAlg.cy. rewrite <- L. reflexivity.
  Qed.

  Lemma addg_ok s x1 y1 : on_curve secq (fpt x1 y1) = true -> 0 <= gx < n -> add_okb s x1 y1 gx gy = true ->
    let '(_, x, y, _, _, _) := s in eadd (fpt x1 y1) (fpt gx gy) = fpt x y.
  Proof.
    destruct s as [[[[[l x] y] q1] q2] q3]. unfold add_okb. intros H R S.
    apply andb_prop in S. destruct S as [S T3]. apply andb_prop in S. destruct S as [S S3].
    apply andb_prop in S. destruct S as [S S2]. apply andb_prop in S. destruct S as [S0 S1]. apply negb_true_iff, Z.eqb_neq in S2.
    rewrite (third_okE _ _ _ _ _ _ _ _ _ T3). unfold fpt in *.
    assert (N : fn x1 <> fn gx) by (intro E; apply fn_eq in E; rewrite !Z.mod_small in E by lia; congruence).
    rewrite add_ch by exact N. apply fn_kn in S3. rewrite !fn_mul, !fn_sub in S3.
    assert (N2 : fn gx - fn x1 <> 0) by (intro E; apply N; symmetry; apply fsub_eq_0; exact E).
    assert (L : fn l = sl Fn fsub fdiv (fn x1) (fn y1) (fn gx) (fn gy)).
    { unfold CurveAlg.sl. apply (fmul_cancel_l Fn _ _ _ N2). transitivity (fn l * (fn gx - fn x1)); [ring|]. rewrite S3. field. exact N2. }
    unfold ch, CurveAlg.chord, CurveAlg.cx, CurveAlg.cy. rewrite <- L. reflexivity.
  Qed.

  Lemma cmul_ok k : 0 <= gx < n -> forall c x y c', cmul k c gx gy = Some (x, y, c') -> emul_pos k (fpt gx gy) = fpt x y.
  Proof.
    intro R. induction k as [k IH|k IH|]; intros c x y c' H; cbn [cmul emul_pos] in *.
    - destruct (cmul k c gx gy) as [[[x1 y1] [|s [|t c1]]]|] eqn:E; try discriminate. rewrite (IH _ _ _ _ E).
      assert (O1 : on_curve secq (fpt x1 y1) = true) by (rewrite <- (IH _ _ _ _ E); apply on_emul_pos; exact Hon).
      destruct (dbl_okb s x1 y1) eqn:S1; [|discriminate].
      pose proof (dbl_ok _ _ _ O1 S1) as D. assert (O2 := on_add secq _ _ O1 O1).
      destruct s as [[[[[l x2] y2] q1] q2] q3]. rewrite D in *.
      destruct (add_okb t x2 y2 gx gy) eqn:S2; [|discriminate]. pose proof (addg_ok _ _ _ O2 R S2) as A.
      destruct t as [[[[[m x3] y3] r1] r2] r3]. injection H as -> -> _. exact A.
    - destruct (cmul k c gx gy) as [[[x1 y1] [|s c1]]|] eqn:E; try discriminate. rewrite (IH _ _ _ _ E).
      assert (O1 : on_curve secq (fpt x1 y1) = true) by (rewrite <- (IH _ _ _ _ E); apply on_emul_pos; exact Hon).
      destruct (dbl_okb s x1 y1) eqn:S1; [|discriminate].
      pose proof (dbl_ok _ _ _ O1 S1) as D. destruct s as [[[[[l x2] y2] q1] q2] q3]. injection H as -> -> _. exact D.
    - injection H as -> -> _. reflexivity.
  Qed.
End Chain.

Lemma base_on : on_curve secq base = true.
Proof. apply (onE secq). rewrite <- !fn_mul. change (cb secq) with (fn 7). rewrite <- fn_add. apply fn_eq. vm_compute. reflexivity. Qed.

Definition chain_ok (k : positive) (c : list step) (gx gy : Z) : bool :=
  match cmul k c gx gy with
  | Some (x, y, _) => (x =? gx) && (y =? n - gy)
  | None => false
  end.

Lemma chain_order k c gx gy : on_curve secq (fpt gx gy) = true -> 0 <= gx < n -> chain_ok k c gx gy = true ->
  emul (Zpos k + 1) (fpt gx gy) = None.
Proof.
  intros O R H. unfold chain_ok in H. destruct (cmul k c gx gy) as [[[x y] c']|] eqn:E; [|discriminate].
  apply andb_prop in H. destruct H as [H1 H2]. apply Z.eqb_eq in H1, H2. subst x y.
  apply (cmul_ok gx gy O k R) in E.
  assert (M : emul (Zpos k) (fpt gx gy) = eopp (fpt gx gy)).
  { cbn [emul]. rewrite E. unfold fpt. cbn [eopp].
    f_equal. f_equal. rewrite <- fn_opp. apply fn_eq. replace (n - gy) with (- gy + 1 * n) by ring. apply Z.mod_add. discriminate. }
  rewrite (emul_add secq), M, emul_1 by exact O.
  rewrite (add_comm secq _ _ (on_opp secq _ O) O). apply add_opp.
Qed.

Definition order_pred : positive := Eval vm_compute in Z.to_pos (p - 1).
Lemma order_chain : chain_ok order_pred order_cert gx gy = true.
Proof. vm_compute. reflexivity. Qed.
Lemma order_pred_ok : Zpos order_pred + 1 = p.
Proof. reflexivity. Qed.

Theorem base_order : emul p base = None.
Proof.
  rewrite <- order_pred_ok. refine (chain_order order_pred order_cert gx gy base_on _ order_chain).
  split; [discriminate|reflexivity].
Qed.
