(** * Cert_G2: certificate for a multiple of the generator (see Proof_Chain2.v) *)
From Coq Require Import ZArith List.
From Verif Require Import Proof_Chain2.
Import ListNotations.
Local Open Scope Z_scope.

Definition g2x0 : Z := 0x24aa2b2f08f0a91260805272dc51051c6e47ad4fa403b02b4510b647ae3d1770bac0326a805bbefd48056c8c121bdb8.
Definition g2x1 : Z := 0x13e02b6052719f607dacd3a088274f65596bd0d09920b61ab5da61bbdc7f5049334cf11213945d57e5ac7d055d042b7e.
Definition g2y0 : Z := 0xce5d527727d6e118cc9cdc6da2e351aadfd9baa8cbdd3a76d429a695160d12c923ac9cc3baca289e193548608b82801.
Definition g2y1 : Z := 0x606c4a02ea734cc32acd2b02bc28b99cb3e287e85a763af267492ab572e99ab3f370d275cec1da1aaa9075ff05f79be.
Definition a2x0 : Z := 0x149ee6d25a1c8648c86f8673946935a6c41c801f2eb23fd9171fd41f31b7ec5c4a85f5b285f02508d928c716f9c1bc67.
Definition a2x1 : Z := 0x6e63a1561fa8259ba6f6e15257a5cd4ab79697e45abf5042aa7cf28b80aa054b18d535b71cf70dafd2b694040d19479.
Definition a2y0 : Z := 0xfcf61319e51e41eed89a6b0ff12b4da6f664b92422160a52083df7086215506947457947cd8917791ac308465a849c6.
Definition a2y1 : Z := 0x14c164377443f5accb1eb0dfbb4910e98a49e53d8ef016c76df99c2649d3f49b1a3d8b6a55e5881f8ea0ecfdc3de9b2f.
Definition chain2_x : list step2 := [
Dbl2 0x15a76ee3d8d1c3451005d56067cd27cf7598a85f81c23cd926ad0ec05ad6440f1df034cf36701a5831c9fb39250e2ea9 0x16d96e785c797fb5d6afcb1400d7656829a6a71c42deb7ddce5cd2ccda4704dc0e4b92b69009367bbf6e6aa19488df66 0x37dbbbbcd51148391c5e381d1681a025fcb015ddcbf8882639b3ad93880c3c1309f57276097394ddcdcf1cb65ff8bda2 0x163197247fb11c5cbd02053bf8f7a0ed97205844b5989c62056bfd395e8c3f2105eddd094e98faee3ec7f5094edad0d8 0x20baefbd896701789e158da5594f8ec691f41860193bb0a639509bc225f59845a3a336d458ca193e66b84994cc46682 (-0x260dcd9c3b4191a48e9de658b15cff8d183dca05ddcd4d1865f530fa01dd8f6e81d8d4b450a73c8cd04de907d3bf30ab) 0x19006529f193c10f2f89b2f0240524d2330398a1ae993882df0f46f8bab01592a843cc8371c8c9f5a6f9f9cc9e2ef825 0x98b2faa8f21338c87a02678b96b109540f6cd4ae93c316ced6e88d89718ad272fafdf3570f5b1601f6f6549f511ba7c;
Add2 0x14b92565b748c30f253912c6cf3aaa45c2b370e810ea9361db7b84172cb1e68ddd09eb1296e0f84058018a4538d64e8b 0x3c50d0829bdc305ff694cc9bf914addbdcbe307142bf7cc7b8d9115b96656327dd7978009cdcddf4728a38086aebcd7 (-0x1144b3134216f58a33042428be2c5b56149ee456327ce1f8849ba3400c63fed6d8456595000d93e3704b130a9affc656) 0x4bc51cc441cea5ddde5e53b907478290039af0123345f80a910d68582478a3d3b62b92c27f14557fb3c64d4f426b47f (-0xff7df4c8621c37b2226de2ff9e90ef845403ee8733e4471ffb0986e2f5c2c855634961947826a161cb4ef9939085f8d) (-0x602228cb95c275dc11083e3c7e9ed17cbbca38880a29fdb97fe9bfc6d903432c946c7fa3b80fdd7f200f54f831de8fb) (-0x313c3c2482c446c4fc518061e8280860e638317e29b4906a4faa4a5dd6f6d4109da897270605825eb6a805092d672bd) (-0x174e27f6a8ede57b79487927c05b756509812d984da733834f6a56ace7c86be710f864a9ea21cc7a7c1a6e2b6d6ec80);
Dbl2 0x56ceab5d5d994dee0ca07fc0d41aa908b1a833b94e768d2dec05cffe4a869aed2a64ee86a72f085ee4e78bd4c2aef8e 0x39b596a976f556e5ea4016a3111e14b674a67295a242cf3b343a6878db6ec20bcac1275d23aad6cd3e84e398a4e7bc8 (-0x1a1481ebdc3b158a31d5e6cd7f49e0eaee79e0a09d8f883d341c0c184a3dd347bcdde7940b66b0bd6c815525e8b2651c) (-0x1fceb72d183b5d60cd30fc22296920b3f365c451b805cdec875c5d34fa17247f7b1f2cd75c75c9b233d632f924f7663c) (-0xa1b5cf51760d5e790ae15e0960d632974ba08a3e60df9471b6183cfa0fcfb80951ecbc3643768885184046156ca4cb) (-0x1814a8e89bec425641194935a30611382c356a8453d46e9dc8fb3dc8c1e5817708d89001a06034137c3c64dc38fbf85) 0x257a635e670f7f3827a47d87ecd0c6917bb2156cbaca68f5123a86e66f813852ea9a1889cbfd04a8e52cc0fe1ab63dc (-0x6af9cd3d3aca626c2a266384a201d83e3db5cab8132955c33308e797940e6c2d7b6ec5cebd033bd678ab93a007d18);
Dbl2 0x6e3ef02d1a04e74ab468f6e04f007b067140de16796e93717f97204641356999f8abc87a7d6c3a51d2dc5c2080aa3d 0x1bd56d5682c8e27f4e58d1fe16609b948cecacbf47561314d3adbfd218516e28b5be780d59a6e961956b585b6151749 (-0x4be06315fa9af097f8b077bfda895d1f3b293bb961eaf3dfc83d25789d0ff909a04159e9da6efa1f886e63ce71f9f7ae) (-0x142f337455d1de92a19eea0aa65b8f401a8f31d82d8193b42bc76316a01b11161dc6fb054b2885e484299fe123d671d8) 0x1bf757e3e42fbc77ec623f78006c32869e32dc91895f880d15e31c3cb6bdf246b92cb54b5a2b1aabf4425aa03b7abe (-0xec011e01a710bda84f6241a5bbe41ea38f1237f3fff5e2658f8b9d1810b19f5f2fbc3cffcd2b1a6a9b576a62b4e4b) (-0x15b8dc489b8c32d906c456e1a37302e06c76466bd591ab02136d127ce4a656a6019703669f37bcb35387be0a2f7d2ed) (-0x16616acb5827eb0e0cbaf24d0f61b3e4662db6c11d8c7f734f46611118b92799c554a5b93cb84e511142d905b4c931f);
Add2 0x8ecc09a9c1f157a41ff8574dbd225e6d360104b08b70bcde984dbdeecb87e54d15afa1ad4d82ecc86926478060abf07 0x1459dcc20ccec09d6ac723641fbd91572a9f1c1cccb841f8f081b995baf77ded82e6c1ee979b5618adb99987cc3e887f (-0x105d47e07ff18d1532c1d05ed2a78ee2561d6225f8db8ad973747bdd7fe6645f4bb074808da87f14bb360761612276c) 0x13b2c09ef94a6fc8688cc6d8131754b02ea2bdc3e4ba936f29c83739b2b65d38bd620b747cae67ddcd7f3a1b3a4abba 0xcdd20550a96f877a24032bb11a14ec05a02a95b19dc4f52d5a2b77b549704c1e33b1a8ad61e0595c98fcdbdba166398 (-0xdf81f15232c4225ce4cc69ac94f2535b1d91a507b3c53d5d4c29c5638a390ee59999f10e8d19262d3e12174e65c1d0a) 0xba1bf4df927d22b116a2008e67b01adaec0b653846ef3875cc8b74eb28d481afc5bc280d431fe6b9f8976ae69e731f9 0xd425e4af84ccd8b7b0522c975130938d42a17aa99f20202b4f3efe5a6ed955b29b6532bc0a5cc51ed30f6d103a88274;
Dbl2 0x75707a467e7543c28370330bea9b6e4adf41fa1060713eedb760c98b7aad959e5dfc28db5abe92a46d0ff04a4205803 0x14061839f139644bb20e864718cfc9c1ee8960c06ff2c240598a8a6da7ed2bcc091f594d8b0715d2f6a16be8d5828197 (-0x2df69ea492b5b2332e61039474d85d4a88c3865736f6bcc51947748ce95e7200fcc266d413c759ddcfb843ea6c420af7) (-0x27dd3fe2a7d2fff2c48ed8bab3042b271868218eaceccf2580ca9848215011a68e57ffd671fac976227831b9d9c49384) 0xd58d51e36ecb9c66ea60f42b95913e44b8af3a0d2f6cc53251808d2f93f6e3ce4b06d437b84a026151e67c01d17438e (-0xb4dca83d242629b432f4c87b0cd8c9fdef9a6c471f434d106d816c1655acfb5a7986e824b76acd05e8323c2e7796515) (-0x5b63c12dceabd650f669c5265f9f28028c81d1398063ae3da58427c951e68dbc6e3c2c3f1d005f21e8baa15e407297b) (-0x10382525317c82829b4265d7843b31ad5a077f604f93932c8bbf3026b1cba446e8e4b24a98773cb5c0ff41fc232e38ab);
Dbl2 0x1deabfaeb3374b50119ecb98148910d6004895792caa88dad948685eedfe9d3ac7315ff9bd8fa7a943e0e3a924e7492 0x7c9b05e8adef4de506459f7be98bf07cbd25fe6f4ac154f7c01f5d8a4b9368fc9cbb8ebfedf28954ae85d6e9f58c709 0xdd96a2295c1fd8335e58cac0174357f04f0edc6eaa73526ba68b42385ee5ffb7322bbeb8a855139fb7801e03074db61 0x6d242e4786769976996191924b7fea0553797ffd5a3aacd9880861a3a1cac510bf4ab3b699ad176c4db9039053ad818 0x232a9089cfe451836278b0b1452271dc3b7c7549f0345d6d8ef59a5173142772f9d43903e0cae0a46a30c269a1cfab4 (-0x11eb5a31c7075855a37b6a4dd758915b928c4a28710b0b7893be59658772e734e30efbeaa5249dd409000575da5340f) (-0x1a77ceebc0f3ff2a18b4988e3b676e90d9a6556b19e413af39ac0108800843e82816540d46ef035ea868f21a455f9c4) 0x2aed383c33565780022462dc056613ce3acbe33fc7a18d03c3b1cd4c043e9604ebe8a093a98dc675ee02527f7cf107d;
Dbl2 0xee6eb50b6c77d09551c6a60826f728738a490c04918351790b28f2aca89efec977f5d8be5ab1530cd829c00c02bb5ad 0xfe2b8fdab71a2b128d2ad1b08e43b756d77e33ad8d6a444a32fb2ef9c6d1098adde218e3fb06d66bf9f7d4b7015a6b4 0x2b46ca46b707bc2388d9d09e8ea802628ed054a7154bb9bd604b0c80f736fb476060952ffb3a7354645f5abd6a8adc78 0xb52077f551d1ddd22c396443ca050230eb2953079003b96db642809198f9e0904e74f5ba823becc4eae84b818df4022 0x12a1f701412b6cabb4e584676921cf1de3fe413bb1832fedb39cc400c57e50ec44bea9075d5ca6ea0f23b4874266edd (-0x1234f9964ddefc717a7b9c538007cfaf6258b42948db4179f9f2cdacbb2213a4014add7afd7ca66616c36bc7f8754a3a) 0x346239494b60e0e88c805fbb6ee80ed4a22283d64af2fc190496fd4a5e25af17398e155e4ef86623c55b7f748052c89 (-0x1e6d55e4994d5a2278a17702ace043f9b930e186fe704c258dc96d1c6ae334f0527ae9d5673fa1fc82ae03fa7982942);
Add2 0x14bf838fa391c4a090ebbbe743ae2a27fa167025d88ff625b3bef3953ab3e70c52b7f1fa0e81fa12d05c20409b6ab80d 0xf45e1251275798ebc25a384129e9223de8b300c58513dc4d4e26bb101a87dc37eb1f2ad58f5ce986c824b89b843b64e (-0x7ffd582850909a73c04cdc97d6eaa21b773775607789a96b2e9025dea11a6156c28240f412bc12d9357fcb632954f05) 0xa93ca036a7ce47ab32d4c499483ba3d06af0bab3b18e5a3d6f428b8f2e09d5c11c5d097013c0cac293f0947a1f69b1 (-0x7958c59c7a8de72317f808a1c84c7b93f22465c8ac6985763ea88dd99e2ce8e44866f1d909a25a06cbec50f5b1a036e) (-0x185f31f2220ee24562cd078d33f37c206d5413f8c490d5ffedae49e43bcc7e14829f5c766063f32cfbf33fe342475b59) 0x91c0a61538e4de8fa056ca00e78ecbc585fbeabdf91b7059bac17279a90fe38d85d314116ee16edceef20f68862ffa3 (-0x82178354ba420b89fb49651071bc79794a5a196f56cd8536945007557a1ba5106a6e692d448fb3d89b3c8990900fde8);
Dbl2 0x15f5f0afe4eeb7545fb13eb055c6ad903c2a3e4b9f14a8dae81217db1696daa3753ccd844396189ffbd89d01fe27fa5b 0x1040f087e9a0b6633fa13692b8f5f46e2bd5fc15d81b368ac9d2464eda778b0051c1027ed3da9931ffbf361f326b7282 0x7d49d97800dfba1a424388f8f7e9944ca00402b20bab0943a74e46f2ffa0ea7917aceab5e75076f2fe6dcafac8d9a68 0x263cc2e42e0ba959b62e864b3f8dfd5676e67fe17cfe1a94273c09b049c213ad840f0c9f02c09149308615e9dfb3e64a (-0x8630276837d6bf0421c9abe06d108d44da07bb53eb96646c96b90b626e28ca8671157dfd183d0399b14cccdceb27353) (-0x1b73e1f70c7333bb4f2ce4507130a11b769bea294d81c78276c9aeaaba5b9e60cae9d9d07764e59aeb14b1a3f145ac7e) (-0x9a3b941747f30c3cd2af576faa219d201744d18c54aafb1166e532127b937722b72df9c5240e9737af9f8b16314b3ae) 0x155d27e8cf95d9168032699190e4f8e11f5824edea8b774bc20c427746fd347d12f2212cf0f3d38b7eab906660085761;
Dbl2 0xf10733fed03fc5b7ae27fc457630dce3b4db45cbad696a6351c7771105a0a1096dd87f04527a34a70ec377ccd63a5b2 0x855b8b1eedbf578f7498f370324634590aee6093dd239d9306991a8af53fac94e1e9b5253a208df401e3d6bf657857c 0x3b3dcecdf510b4f4b931898325eddd5e6786600703bfaa6681b36ae05dc6abf897f7d3f649c52f77f6a29c6603418598 (-0x3af07020b955ab010d7fb70d6f937f9da3ae207269550b792cf11774b00ffbc35e693bc6dadb5f41a61bfc98576ac1a0) (-0x60e25c6b87982cd9bf9a3431e89962a996307f9c4492dccb04e04c386b629b797f21953d235f1cccc75312de55b9516) (-0x9a822c4b9b69ee3975b3aac21a7c6e04470cbdcf472bb4b1c2fb7fc14572371f4f649718b09938bd5d01b2d02b2caea) 0x381c987c44b2d48489778f53484f01d3ac4226349073bb7ef3a6bd55890339e9dc84079fb4a7cb2d5e814f18765e622 (-0x7d50f6dfdaddb299f06b120fa4fcf78f3cd05a7f8b1b564e4dcbd8b8067f5f791677bd05de511de02342db64d4dc59f);
Dbl2 0x17900cb270764782b3eca3d2ec46a86181ef1ff2f83172010bc299acce5e8da96b6b932d6c92af226aa27e2cbe8fae21 0x1be7df7094ce56532653ce2da33c37fe337917d32826e1bd09104615d27b1dba405157c82358801a5440afa7826f03e (-0x44b2424f0cc2f725d106844c03443024a138a6907df0f98cde81817dcd302a7855988675f08a690fedbedbfe83cface) (-0x1916751b6478029cc176378ec80462b415b7ed986ba38953513dde9c7ff6244cbaec75691dd117fca4632576aac18b0e) (-0x153bc3cf23ad691378894f11c9bbdf1aab90f71b702d4255163305aff982d4abae91b8a5692d9d33456978294b995723) (-0x32924b75c28062a41f8bbe2a67eed532846390e5c1694ff6e4f107a6cc2070e035c74b7982ee035580e5896441032b8) 0x1d6a0dc40b4ba6d7f6e71b19d19ffdc6a6aa0297dfb8449c953364b72c82e7e2f570589498794ecfd686ec5041ebe44 (-0x2c765c4335669cde1ff9d6c9ba132ba122692abddf5c52f37aedd33f2605d939213e772d3133a90fc9d9f30df21eb0);
Dbl2 0x15ed1256df8e5e5ca95b56c878630a1ca624fae6d5770503fc7cd3706f331af3de61fabf6cf96397e7b79f2fc8c8275d 0xf5886abb33616f07cfac605cd5194bd83d804f9da8e5cdaffa3eb442aaeb1342a8a3887ee76aa06cc2a711c9ed0f30e (-0x21f49ad37189ed2de88c96ec1b26744265447c9f50d4d8971ad9884c1635f2b3adca79145da18c04cf4e9ae21e42814e) (-0xdebcd42cd167eb35ba38399fc9018cfedf4f653c161a20ba8921660a645ebc45c91733655f1c04ab119fdada8e47916) (-0x96e76ccd07ba80ef1d43e0c3fc870eea13eeb76112aa8bddf7f2d0c4c6a9b0ef50bba14842e7e43af07ab103e5a9bbd) (-0x19e0ddb05658014e5b9c8f6066151a65d74f403a5638c952b55bbfc12fc111250c4caa841be2ad8a40df22d906e0db40) (-0x14cd10f22150c92a7293a25a0a3812a05578e0b2dd0dd477298f2c6d394c957534c35bf9fd4dba9e5466c2227668e6f) 0xd8da33d4324329497f185736ddb4459252ef49cecd63a4cd957092f4c3e1424c3af73bfff93aeb587e31152ef13ad6f;
Dbl2 0x249a870907df1494e56fc219e01fde22386755f816c125f4c2cdefe8611811647fac337765ce308dd13ea9ec917f81d 0xa59546d0d9d0d18614e98790bdde01f23d77cc2219a64e16678659f6f9ca9e64f594e30c3cd52b28123518842661348 (-0x9ca2d543776abf49365a18b2ebad2ba1fd4312a7d0ae9338888719268e16036f6103a1e00d940cee47da6c73c968b04) (-0x6aca11355ec107ef91b51da3239c4636c7e8c47bc63461fefbc76fc5770a5ada3d3a8235e91acb4525fe2d24e4bba170) 0x3ead627fb71a234cb48c89eedadbef625c7ae131577a7fdff33576e69c07ea13ed1deeb5ef3df6dcdc5447fbb1cd816 (-0x1d226bf474cd296e9e525b093639376c8aad6830c2e53773f1780d15234f7b81166455ab583d826cec4f84dfc06d8ed) (-0x11a7c6a43e76751e26eadea827e1ff7c0af5eb0928a314ee42b408e5842823c0d93110bb564457193b3f92de18e999a) (-0x3ddea750936c205ad1edb900a3582e59b9a49e39f33e9e68e95f20b562ddb27d97704088f4fcb55cd12d1e1203d7ebb);
Dbl2 0x3ca74026cf32fba56ec4ffaf56bfc4d589fd5479b90e9a3832640fbf5ff16fd5c8661358f86bbd730aa1df76e95257 0x16f491b5bd383da7e70c0012e06dce324741a7e96cd8fccf402fb94e1c54fc0073a49b0577775e0ba37cd47da598900 0x29610a50eb1a087c675ffc06f6e3cae1e2569a4cf3a60cca9264ce540c0a8149d1ed289601ebfa64e3964c3c375c6252 (-0x45b38e2916fc3456f6091e5f32658bed5c4d4ca103d6bbecbc64f037e169d44ad3e45e7df6bbb654595a5d2eedea94e2) 0x13b61b561ca46d18a5fa724d64ab0bb95d5b3843ef6b5f7b6c4059e15f4da5b0171f72e3507225f064fdc2c580b430 (-0x6b158cf20d877f57ffd516ca065c2468f53d7e24c8c2d9fb0b946d2440b7a9cd3397132e69afa1015b67d9d993a5a) 0x10f9e921e842185b7794be79c3d979d8bfb6ce8062c12ec631e02c2aae5019e4d6f6d8114a525ea7540a7a504eae11f (-0x103cd1ef7129c1e4c6524d2cd1f322ca35e02ce51762a8c3746c9f2ddd49e82edfb3e97834809d1b6dab78bf5df367);
Dbl2 0x9a76bae205af60fb63330d38d4d0d00c4d2739ae3a0b1763a9bcdec2fe60921bf629abd453bf5d35812bbf0123c972a 0x79042a88c84c694ffd3fa1257cfc1f1da9301aff5ef309c649bf53444907381a7d0f976a5e2fc320bd337a5e6bf6e59 (-0x13f3f86273968379a68156339aed16c4278c4f9857c3a23819bef0867f35f2bd72837b1992f028639ecb6e073f8e7ba9) 0x11f9f1e81471a5942edc41531d3265da6b5eff781a01f52bf5f02a42d1754163d603e1e1385d0e7ac9cc6761f76499f8 (-0x1625518a8db5abdc715bfdfb1970dc3d6f5a53b46e0f9608c72cc7bf6be474086215ee324ecd9cfe3a14d087b06be1c) (-0x59da9e6b0dc8847357a9c61413ec9ba8761e6ef94b4999c0d417ae814e59dba78a21e73c96990dc7c959950ceac7b94) (-0x9c4ec42acb4d862e6e314c754565d76e4c47fbce12bc9d7ef29e6ce1fbcffe6a04c7b3b1867806a5b04948dfe9e055) (-0x6086f883eef5e3d75a527c80f80d19ade36dc571e37d450a080245de215b07b1d14c5cd30c7f8ec93bbb69bd89573c);
Dbl2 0x135ff64b4d73a3a2d0f886b2eb84e8fad6b7625c837aa2728eeaf2f380047dfe3a21b11ba36890bfc74afe64e9f3840c 0xcc7efdc19164223dbcb0b43e4ee3c4f4c650fbfe5a0a3700cd16a519987e4aabf6bd8d16fa3e40ac2853a97b01176dd (-0x16222b5ef0dc2d5538df10854e50a209a21e7c8a9cf2c3ad5ee1f79400772086c5ba39e02bf5fcd9ebb5e52c1b48629d) (-0x50cf5283f3592cb43a788d6f761d8482c4b86a7f48144de4dc3e5a27b5c51c2e6cc1ef6d2332ae77b3876b3df4be922) (-0x8275a457629c2ab478ba4af3fd97f6e811f0bb3e60470715504245739a1f8240e98765e465ac627379da0f713ca5e6c) (-0x130b9f9a08454bd6a8ccd52d77dd319ce87a6d5f8887a39dd42dc007021758f45531e5b9e3b092a18fa0ff0ef3a0389b) 0x1348bd577a5d5d781429fd83ee78bc58f1a34193623c17a4d5be761bd8c444320ddae1ce9ec582914e3eb7e622bc6da 0xc6fac397faf66cd9928a4f238908d26cf13272d7166773ea0c9779b0f85a5cd530a615dddff7748bc582a6fe8cd54c1;
Dbl2 0x148a5374166cf336bdfb590ab3e98a0f2d52eb1fc8addbd73d021e6c59ff8b91a8fb6bd02a0d320eaaf52d68933508fe 0xfbfa5d5aa28b0148c5da91a16d59eff4dc469e9a00aa1e6c9128ca3eaf8fb765006eba3df1bbeb0847972fc9cc9f5ae (-0xd98bcc006579f23d9b9c6d1bdab6d18a3f74d7e9fc17f787ae1cc5056afd977208544e73b7814aa0cb50b88e0228e04) (-0x1929abab3199d6898c86223be73b50aab963555647a9c4d11709c3c69beb3957ad7c5654457155301f28876b61fb190a) (-0x6afd5df3eb9607d2a03e1e12b401e217758457fbe57d0313be9cf1df4ca5d90313f70e0066b5b4ec5521dfac23963bd) (-0x18e1157586f13429db60c1f30463980d8afdfaa31efa593e9d707be424373897fc2336430a90cbe75134012f0dd9324d) (-0xed59cc14e37b4706296f59c42809270118a2b79155a47e1b80eb5c48d9237c740e3e07c3ac674f721e3d16dc39d478e) (-0x10953d2827ca0d3a858f75d176b5a2a1d192ad0f924e59c35ca0ea6d8b6f884e998ab5557e34c5e04a77405e912019bd);
Add2 0xd75df1478e683d022e71dda20b2ee156e2703ab722d3d6699c526b1363aa3d7edf86279a9db8b55b3ee3937fc331282 0xf657335d9eabb7551b40995f1aed0135a3006438f62b0aa29f3faebba16ed6dc4cf9025d255e0b22ef5ea34500caaa1 (-0x442787b49c90f411c4d218a562dd6c1e8a35abb7610ab8fc7674e0ed1378eaf23df9535872cc2cf645dc204f54daae8) 0x58f4010c92e210cd2c37e62c0d933ffd453a238ebf4d3f4984c9058dd2088cb524d37293758ae95436671d3f7a99eb3 0x225f1026f6b0e86aae5f7d6955e15ac2210ef2646a70bd4f30fd59aea062fe7faed582852b32ea72694a399eb124f9b (-0xff0648a4e2580a6dfb918e434f06b8adf0759308b73433509b482e954f5281618f43509e0b5bbd1a4679afdedbe9927) 0xabdaefa2fdd449031c53ae77526d80989630e03f9077be5ac4d0d44a74ea553752b222ca962ccd6fd0d12f0847b759c 0xbf2571d58622a6d8381a52d93e64e662209258ffecd1c6d8e1344169c5ddbc1b318bc2f5b36d6026b94fb954cb51708;
Dbl2 0x1137f470c8f7d00baa56e5c03e76ea8acb143c96671cbc65033e67ed9f2b5e180252357114e4f467f4709129c1d6d6d7 0xf23701cea5719c6d8b0d3f3bc8572953d8f42a55fe9970085a5304db0b3422f71d7ac93a2a95cfa92d0088ab1308e85 (-0xd617ffbf6d54a7d9610bb3ceb5d5f73fd40c32e9ba89825dc8aa7352703196775c42c40871f61ab94d9ddeb8ac74b1b) (-0xc3227c7c72170ebf752605b2b32b50b12c0eb6ffda99cba4080874f0b6e2c15e96015f334f409e3bd9c1b8ae0225816) (-0x2969c5f9481a8d29e0dc8b4f190ff31962a96bd6d7fc5f6a3112dd3d9ad9fcbfcd308a69496a872f958072459ba2f61) (-0x140c36e7c328385776ce03092b207fd847dc5d6791b6df38fff8ce837f573837c5192fb7145b483e117162433382885f) (-0x795d643ad3a2dd84df5ceb5cbde3a7ed64fc2176516953ce49cff48d626169dff790a098798c82e082b8badf853390c) (-0x1145b833dd62b29266d7e87345cd34c6e351085d01e651a4d3bf6a8b71098a8a3dce61bb1f5de98b70172c8986a9048);
Dbl2 0x373d7203575fda92e7b4b0239b7c7695d2524211d5341f332c9317a9c538a1808d10350e8ab375f9e79671f77c33b38 0x7b03ee28e327f04166f5075f657d148ed56fbf731787b28e9d5746328bce07da2a04f4154a74ef22bb2c45a0f0992be 0x6c00bc5200e834999ed7f46f4819693371e14527f02bd1d16ac05c24736f958c3d3ccdaf05e4ebacaec37e6fa638aec (-0x20eadd750ac55cc47e1a2ed01b59397bb57a44ac7ee658230a01b922de6f1b12dc1d8ab7a25d925ee079af06bdda566e) 0x1d0976333bebdb9963aa438cbbbc26db7d54a3104fb5d8153152f4ee052e73386b748dac016b242f2c2aaff360b51c8 (-0x20aa3059b12969cacc0d7924f3d6d66c46cc5dc1c9ca752a79587dbef8f118109df5f9a4541a2b922e037080d18848e) 0x2bcde9929ad5a2d1c1212a21dc3ae22ecd6961b227834d69c42ebb806d56df0cc9691bebf085bdd2c43b6e5007835eb (-0x52d9a1e64876403844e55da9c9d4ca8ca382d0b6b9aa156ac580b2b38adb59a66dad0997db5d121661e3551387b268a);
Dbl2 0x18b70eb629a79ff3f983498518b16faf0521c1c5a11c352341629374ff0d1ac17362c7944d2b6e4cdcfd83a0692003b0 0x11fa0abe9f21dc673b14d9174289133e7279c670978cd5690526f609b923d7ba3b37b63cf6dd615a649c30b33d8b88ac (-0x8f3ef6d274a212cd4c30504e2d38fecce16c5dc5da2899890d53821c52b841482fb76b92dfa14b887141953c5ef654c) 0x3d1a012c283a80a74a2c28c625c8309724180d6e9c26b671fa1f8ce1b98206867bbe38ee7bfaf393da0c2bc6eeb76208 (-0xb1001ae3dee846bbfe16e41695a4f8ea77e435961bdc2b5915404221dc0693b9b8c312a63830d28b91de26a7e5ddbb2) (-0x222bcec573337a5f5259d4d6adae0b927e924558d16e4f0e9cb85d8e8f924a714caeaf3ad62c589d0675c7b4af46ee3c) 0x1125c57c78f86595076ca408a3c59ab1e90d677852ae4c9095b58e205a02e67cbdb9beec3cece461684847392510717 0x5399a7763f687e7ece96da688a526d9150992194e172a610a1e92446b1a46312017c52253ca37a7f24b755c648f8521;
Dbl2 0x2fc21e36ad4d0da0a00add9bd428c9c44f9a83980265ddd5cac54906e73bae3b43599982d6310ed50636162786d1b75 0x2b70c4ecc512e5b7a263f208e2d6c8495568d22744ab3f376045a0b6f715c18ef69c37a80e8a4f63bb295c1f909c9f8 (-0xcdcb8e95ce020326a53314abf0837959eb43c4193c089806075ecac1e03dff20687372b91adedf2bc2fc173b79b700) 0x465fa602a7c81a52409209414a8f791a424cde5e85732cf355208bf0ff8500b5b4fee6687a55082ef17611c1b329790 (-0xf248c5ea486ada76effe4d4b1b831c9f67d1ee9808cfd386adaed95c7b5ac18de93a184cc81c46d3f4423d3d2488e) (-0x9f8ff3b0222b7e79d73dfad3393e679161590264aa7f057edcd1bfde1c92e9ea3633245ab92c4e29e26c0a53374830) (-0xb9042f04c6b79bfbeb4d4a937eba11556bbc27b8bf238baa27726f6b5e5c1e640269673cb78e7dad6523ddcaf42841) (-0x6443d56d28babcc3994b2887b90877eeda367bd8a327c9b20eb6207668f0af78d0d213073aca2e27608a4f348a29de);
Dbl2 0x10b916005fc2476498beed417afa88358fa085d4db1d9e6f864b49b4b96dc11dcb31a6b2f313b674fee5c83040549617 0x185827ff9e3c833ac46e1e1674a0ba0ae49290dd243bdc6145d1d4d76b0b03b8d7da125b0a5f1bacd2bc2f38d4e1a34d 0x111ca854426785a15d451835c3f19cbd42b4aa6e5003de93bfbb292e70d63e17411bdecb57a41bcfb6d1666e0784677f 0x1a1e69d010124275fdc44389a8c8c797dec14fcbd57192ab6838357974eff2c22c9a0801c0c77ca7e8494e9ea4cdf148 0xc093f24aee5f5a5eb1a993e6da8fe75c9c12d2d6eefe56ce0797a02442b76399dee0b75fde4b8c967031b74d6cee522 (-0x1f4fa8529d3d719f79ae95f870f5ba747ccde89d6774a86880a4064dc089c9236ccd7f29f25aeef26c364720bd29007b) (-0x35a2957022202e8ab381d132370270304f352e9a2dcf1934b05bed23d3287f02a58472f23a579e125f027067cd98e33) 0xe0a7120dec72f71d7f98d51d49949671d7a34b1a97be896b0a6152493a3d7eb57f01c504caea065e7a82b41d05c85fe;
Dbl2 0x1274aa625858db0bb675b3bfaf508b2248a1fe6ffc5d18d0da3e0d01e0bbb52a301585cf3ce32e18da41a2016fbf41b1 0xcd9b76612194b440cbd9c67af3784151a3a1a7585c177cf0df8603dfa938bc22d0aa98e4cbc0be362614fff6f6d4898 0x251a0ac0597a5b3114f98da1f6724831bc2b950efdbad787b7760af24405baeb9314536a63bf0f6d4b133049e759505b (-0xa1dada3b6b466cffd5bbbf0bd10533b656df1f74464a1b5b8951b6054d4b9f9edfb1665e43c2fba7445b695696f35f8) (-0x6bf8578cde5c639d6be4b6aaece0bcfe658412f59f06f7ffdd95929739548ebb9864ce65849808c2bb4891cc8fb7c30) (-0x123d909619d38f2c4189e326b0f449a9376fe0dfb05042060b1f2044d8017c7714938346b7bda3be5d66fc22741155d9) 0x559cf2a1c5749b1cc5b0b6392a8ed90c8300a8e956fa66ee71b0f72a65c912a72c23f823dbba180ad448d040b7c8e49 0xb30cfb689e1ac007c0c006a5cab9e4fde941ef4c0646af89923929e9c9444028f4e5a67648c0255516696c345fde9ee;
Dbl2 0x232f7c41bf2d0ca9a4a656040864a9ec51fc3fceddf7498e96b0c22d39fbbbe7f55d6bc35a50965750c7716c237772d 0x126b7366a9ba4cdc1648b905eb2d53ffa24eaa0527809305911e6efcf7cc8f0983f3a122ebd5d6880bc93e525c5283bd (-0x17701e15e0d3ff1a04d342681597579e490603f0789312c842449fa20fb8bc9a91c8c342ca169bcd032e33cb51faf6ce) (-0x5d0c16cc8183134c2c3406ce2ca4a04700a7fb78b90d2cacdaf105e69d92ba51ba987cbe77583bd36afc5a777496b4ec) 0xcdc85665046b25e45ccf0f805f372ea0e661a174ad91df5d938fb8e794ae0b6436a3190dd4cc288c23f316eacc5b5c0 (-0x31d8acdbdc717e83a3b68043da70572edf9d84945d8a72cb2fed645cada514aeea534e322cb113ca04a20f86903a86b) (-0x1e81f1c10dbffcdd2733072e69280e3a834dbc6afc98c46d3b3fd74a5f34605d5916910dfedfeb585f2f2a1476d2826) (-0x4f1861c81bda6b22da6728b24606335aa34ed69469bc4aeeadfab6cef16c13d2fbe4263ec1e7a52c0f88353e2d8adfa);
Dbl2 0x3c52126f27d2dd758ab077088f758a89df448c1dd45282d9c2237332a12d63f617991e090b1d3aaedd7ae3ae5ef62ec 0x19ee364564c01cbdf0bd4257877b0d7e053d12f91fa49c91b79fc38b4398e2af5a4ac3f48bf85f2a28b11ffbcc48f29d 0x1fae417c9e3ee7404588fd6aeadcc816bfd32784c1b7ec0d8c02e7033eee4a3b844342a282a5b799268eeac31ce8699f (-0x4e94b63b352977fcefddd2d20aeb54f490f974f6d4fb1fa7ccd620907f7abf2637684d898165f0aaed259c6a05863b70) 0x194f7c19f25430d89aea08b668d2f204364ae39a2e4a713c22e2ac9c7e9d6a063aceca467e96b2815c6406df04da9f4f (-0x784ca7fb110c68c1d3def9982d4f4391b87795ac2849f0a66f9897d0a74fad95df6f8d5ef97be098caabfe8034f116a) 0x190131b75cb7f25289ded650eba1488abe88cb0d9d4827b0a757b8e92f346663725d1624381d210d6b7fc8d3f8ad3548 0x4f88a33ff0bd03ffb5206e90643e59fcdf4527652712f908907e9f4de2599cbab1bdff073bd88fd7d8a352709158b96;
Dbl2 0x287b1e39767a3c2d102a8257d4c97a8e9d64c41cf2dffa1ce9896e5addb637375420be149369971c3fc33245bb7b9cb 0xdccc3a8b263abdc2c1112a2ba4e1537236425a49e10a76b09b6128f5e000427659557e16f6e6c10c2da68b535025ac5 (-0x55cb3f6d7cbc40ae76e703a6dbc68928bc710aa2bafa774f1aa96d2dc535f9539771fd793f60a39252be98e61486e8f4) 0xec668bc36740940d1b60f818215abb788dfa480b0e73c4425414cd10531e34928556ff04705a31832448e8e63fb4510 0x713bec87a3a8434f8f1b673f31d40aa7c0b39f095f203597f8dd186dda8e995092706e27b1fecb30cade6643d363d5e (-0x2af6f81610dcd6f543501d471e16e7a602ecbb2d1a843e9f691d7bccec6c558662931aef0099bade6daeeaf7f7f2aab) (-0xec07e0e8fddc67eacb8f8686b6c443baf883bf9874d3e85ba636e74e567d3e4b3c0f16f164474bd8ba8fbcab4c622a4) (-0x55c793bc70da6bcc6c1fdbd3fdab25ab06f4abafaf94901f91aaa7758197259266ffa23e7b5fbdf7ff6b87cd5026b7c);
Dbl2 0xeba32ca0fdf04b16e700d02d09be055097f3f4285b74b299e633711f24267eeff96b84c9658e94dff575b044fd12535 0x1853f7c388088cef95618ee7fc016b0e19f5a9dafe6150af099ff3b68fe53867aeee330edac31a776bf2f2a7eb8d07b1 0x19b5d37e005876cf4bd99dcd5fa99c41a38c1704ddc357136b9006dbb8ee1b23ec73297be90132a5d62285305094b4a5 (-0xf9411a241d2edcd2e4997c4cb676ee349eeef71dde4dfaf135b4aa83b4639d8410e1ab5d3692ab305d1c177a2062fdc) 0xe6b4aae55b57f7710a70f7ac8f637190b0206d45627fc48cdadf300023b288e4f28e012232cd0c3e8780607d04e54f2 (-0x1b8e5b685dd7ac4594b38ca2614a8ed096e1072006fea4c11fe03a52da37e494a4bd40cd3a93df8afc8456db57acac6a) 0x13c911f13f0a1688aa9bcb8f701c2c51cc31e1a8ba027e785b181cdbffca4cc32bedc9845c89c3f22455ea0a4bc2636d (-0x1bf0d1f4bc7f028ae4b1982cd90699dc365b87faeae29123a779dd11bf2f27cd997ebb5f8ed25f2daa766fd190aa2d8);
Dbl2 0x10e5f821e745ef290f77339938e8c939bcfc597914fa0bc4ea7d0b2339e762ea1d7417bc1393c1940f25665663934fc8 0x14df29fafe098da44c7fd336e97eb8687dab2a2a640c57f41257c93b17f3e38108e6f373fb68057499c7406aa1ace48 (-0xc6d42782dbd77e2143eeabde67aa9a3a749b9abf41d80b2ea1a32d93d812b9c2892d78c1995a8284dd388395fa1cbb0) (-0x14f478766747c0bacc0b44d66ecd1db86daf1c52f4e3ec578e5c5a7832ca70fb579db0672cebdfbb9081d87df38ef498) (-0xaea6559267631022e96ddc1f592adf360ef5263bcc4529f7db536254874e39a4c9fc6650774a17e045a1a67348ad5fb) (-0x1b204e288dddacb7e689adf98c4d81510c4221197fe0461ed22a9f9da0b22ea3a20675941fee8149e3536c093972666) (-0x1e1300e5555f08a3f5a0ba24e14fef135e33ed587b33fad951639e77d9b258b91486c8ddd855d832dce7ce59d76fa65) 0x99d2b8e52e81d8f3b6544af0c8745c826ae9e17cea5a502dd75a94db3db2484f452db45778d4102074d5fa9c1d5e2b9;
Dbl2 0x10ff70c91cbb8869a0659bf2337805ebca15d19f40277942937c0d4560eae2eee4b7ce1e54863ab6d50bc9ff4874b6e6 0x1951ff3142b9a208e5e69e5942f145b0f85554ee195ae299cddbe3decddda92adfd9039a7b3cfe640c29faece9a85e53 0x288825ecefa68be4ddafa4ad718c9ec1cec03d343905cc59fc97db26c032cd40068e396fd8c771f808ebc73f1cee27c7 (-0x395fb18e06704384abc24fe5a2f0b27ba673db4edfeea99e968bb4c702848b5e7217c339ac02efdddca89397d893e702) 0xd8b2da02eb23c4771210a7fffb6ad3231ebf07ba7c0ef9a3d2ca21aae3b76728791399a2c22d6d6f871127e602be9f9 (-0x211a016ce7473cf7153847fe2d73495ae7274311e1348a1d6a3ec640886e84ff07337cf515d933a27dfc23f4ade97966) 0xd90eb01ef192322bd84787a0fcbad84d1a5064466e5f4fcb8cc3f001ab48c46bc7197e7e9f808220dba4a1597bd5552 (-0xa7ca7fcb48a8789c93d864f2bd86a9146efe0e5c029b9fc61877f102165494410939fc39c09af9b6207e818b83a604d);
Dbl2 0x15d2f6b35415870ddc7054f2e32a1465866e01898f1f3b142c02b4ccd505fbbb8d8bd06421805f763874894483dc214c 0x183abed5b2d1d128fa596426b89ca852d2ba8b3590cd530181c4e72fdd8802ef73ab15eff6749d4bc9865ee9e261110a (-0x244fff24a51b6f12e48a36a68c0fa78660182de5089d34172cd297f397c4e6b091488b51c1249dced563ca504218dfc) 0x58b4e04736d780871a06bf0040422b760d916b322051004c46f5194a02595a3ea26ed6a526987d36310e152791dbf34 0x4428d9500fa07dfef1a131ba1831028fcfad717e84329cfd93d8d6e65cc0d026cadb91418c742bc72a36ffc24c891b4 (-0x28ab5759439891156348fe7ea94cdb435093aef3d75b2713f8cb369be8120c2bd9279b247184782520e9b5a42f757fd2) 0x2bf95f64c49cb7ef3abb334ee1ecfb7f8a7bd24f6ba43cf97eb9f3f1df75807fe4ca4c161e4ed05c47e1f6d93186dce (-0xb2c4528175fa73607720f20b1311c32d42e65f470a0c35377e990ec9d750a0502a3d046a71af992fd53ad95062d0a5e);
Dbl2 0xab36c91eeeaabb24820b390406d92af351a91a43b294110a69e73a9a0f2894ad32c28d81f078a90be515d55a39025dd 0x1029fa62305109a4d20176b9533e34319846e866ad7ddd36f64973cbec18695bfc945495873b5a72e8ea0e7d255b970a (-0x18481677cc6315e57ce35730f8744b10860089c631625d6976f69303c94a018182fc9c395db2ea3d69c474ef0d19ea92) 0x240a0b11c8140d848a7538a207c761a43c64b1d301803bf715aea59a83cd0c605a66d13f2677f4efcbf6d610466bd41c 0x5a4d7b1e8a995c3003cf319593afe585948e80f74ea8330cb76975dbe88107ca2d2af568bb23f17747097ad53b2d872 (-0xd4d9afd61203015d1aa15bcbf43d9f524e18ee9e1c19ab0a79539314c58bec7ea8cab9a963c2060dd4afefcb7aca61c) (-0x512be35028045d58ba85f3499470bc8fe84b62a4ed5ee91f425836acae22d9be5fb3b3f52ba221c3895c2a0ade7317d) 0x9b84867a6373e68cab39be5838ace724b31589aa918b615e06597c362252c742507760b965aa9d20a1c68ea7d4be1eb;
Dbl2 0x8bda1d762c986632aeaca1e09c08bb4fe0abcaefc921a404b66f01a40c86e83fded68478deb02d48f2ee3be7ae899ed 0x6d4fe75b0153bdec12dba827c67f5884f061f219cb8ff55faddee2a55b5154b35e2696672be08cacb4795f5ddd8497f (-0x2efe01c1c74e603baa3e26efca34c7ac24ee6f849bf5ad296c16027f02accda872de96a1ec7cfa4a4d4a4d0f7031af1) (-0x1ccd969e8283eb084b53d32e1deccbd40858bb620da5ae3a36e158374b5bdac0c02a44d1c67b3e16bcec1d50b17eba6c) (-0x1249fb8dc1c04babd181fc1979103c1203e78df278635db25aa9fbf438e5e86e758008231629e9778526c06394a65ff) (-0x497c62b9b6afbabe15cd8f9ba125ec20617fa558c044da42890a5e1cc3b5f49a2809f3a0fc4a26a5d61007689b7816e) (-0xd617c8a16b304401e3df9216b0ff9a3b7250de9864406ca19bd78cfa9d2c14336d7a3f25cce3987547d9c5f6915fef) (-0x7fcc4544d67483d7e990bbbf2b156de4a403786c0544bcc937af566e36d151f85679b31bc8f8ea3dcf9e2c00caa2d74);
Dbl2 0x5a79df85b0a96adf6e2dab8a322ce58631513aed92ce0df838145c7842da8419fcaba0e89eec90cedffb5559d9f7cd6 0x11b7c924610a8268c34b8259fb3d98acbbe375c161f9d2a8712f911d31ea73387b467687f36133a552f9211634fe2feb (-0xecb7957dfce4ab9e0ea25ad75d06f142f536e49587921dbe1a8879b27353307ad053e3bd45c050a628212ee5a577893) 0x119d70bdd41aac617499228930a59993c6a5393de79b41bbecc6dd15b9d5891d8949e442f01101fc9eda24902e5f0938 0xad7a8ba701416f66d6fddf441a0f74a5ee99d597459c5111f1a8bc1624989045b1ec6554e0cc9251e3a017810fcb045 (-0x7b4a9f58f2931358c9f34bea483e09cb3f847c44898fc1e2f5f88e764f3e990be32eaeb93dba1efd59893dc7ae12eb6) (-0x35406b40643740fb84819e8f2f9d5e515375910280886d2124ab08645bef306f20e41480f10e37e7e1e0b5a821eb110) 0xf5b8f31f1a6b675cce2e82b15c88ce33c2387b71c966244d83c355c2034186eade9c193cd9480bf0fb842e59da86135;
Dbl2 0x1971f0b4a71e609b35922e78337b308d7d37a5e715e2c6a7544aef13d7757e76ac4a6a2ca05df784a5a683833d2e1464 0x503aa962b29d72a5d9f6cf2771a45a92c45f43bb070b7fd3fe5162dcc95efeedb645acb9afd8643829c2749745e919d (-0x145497194cef0c66248529147fee3b3ddf8231693bc32c1448168022c517b6b07fe509113cfdd9002e92979f74a30b12) (-0x346415f1c5a35643bb9b8288db68ba20616c6377f3f5ce15403d3786040828aac0942404a420c0963076c04cf40124bc) (-0x17ee5c965e5b023961f57c87c4f8f89ef55a2f4031280fb730545f04521a7f3e60db64dbec1fffaae0ed94e006b86721) (-0x9d0224e36559e9b875044aec31fb55a6aea667092ac16c157b28470d31aa4e7e320e243e2104b4d35c475187eb9974b) 0x11bf95a34e47b1c29576696bacb98c4529e33ee7a8378b063fdfc980f801a21ac1d61fef5c883ec0867383793233699 0x8f3a7a46f4bd6c6317d4e4b8e80bde93429c0902cd57e025d84b3ae727fb0f7bb2ddeb84b8dd5aec19953b64ad827e9;
Dbl2 0x1657a4b33e1400ef6e296282ea313e60d4b8240679b0175efcbc9d2df3136cbd1a372ac4bb42fc51b2f0d50a3d7a6796 0x10992497f5f8bf44511213229f6a20404576105e15a4930cab44b72c1fc2f89b5eaa0345af91b402ecc6cf1a742796cf (-0xde422f200752ac53be8b578b17d5590e11e64d9f1ebda9074f75e4bc94a64ff2a6b0153aaaa5ec55e909acc8c8b0a13) (-0x48862412f39081a4485acd47f5314f56c91e330cb8d9b82797a2fca09768095f5c8e4174d79086d04ec71f9fedc4b074) (-0x89a0916669b77042951a904c4232a58fc5cb00f66214b50a381d8798a9b476e778c74c30c164ce802ee64a051b3f494) (-0x1c8595d7972e73ddc9061763365c00884eeff55ce977179bcbcf2fb186049ae87656504e7f2e296444d71cacdd7f575d) (-0xc26a225f682479480fa8b9f218252f57441e25aec41fd526921142d0a25ab8f127446dad6ca37a2bb73692488708a95) (-0x18fbefdd9275b7c4335b4a2567bae406db0a46fa7418161ce6acc207d527a046035cf85662921f7848df33cf0b7d4a36);
Dbl2 0x16691c1bdf57ba041abb3d97c8d34c6b4580edfc55e023b1234a9695204bd44f55ea4de60e51e461db9c85f42519fea6 0xcfbf5ccb325675b1a3becefdee4fe1d3c64b3fedec5632647f7df16fff0877b21676607a81022cb0b3b0c523ae71819 0x61512802ad5789610f17aba36431475aa56cb172f3096b05513f2787d0aa281899a90e6a1337cee3c7ea3d384912012 0xdc6127ffe85fae3e451eefa3c5f04e7602cfc8d27be7db909e23db6a11981b09f4531b9ec8010525ca1605c08f00ff8 (-0xcd495f93140c9d6df0e4138652da501b89578baddbc6113a1162b6fbcc28730489bd6b1ce17e1629ac6ca1ded8869d7) (-0x1661397c1481c1de05a54eb6b59cabdf6edaa7a88857c7f4eb49b0684dcef9d76cbfc4e619e33dbaf4d03d13138ac9fc) 0xc415b52aff087496e974e009d17acf542b4f45d464d64ac84ceff9f984e540009709f5e35ea3e8941c91437c52e4836 0x47c9a7e2f038d0ef148646d36eba67af4b703cbe0482e99038e69211fb4d24b21f8052c044269eb22d9d878518117e7;
Dbl2 0xe743528ce0c94e1a76f2f6006448cecfde912a7d2029dbcc74774ca1af660eaed4d832930d36077b6d0262e218111c1 0x133d21c52017365921207d63c8fb346621601764fa91b40acd681358d077b827cc148be2e1f8a574cee0dad622d6fead (-0x26a56c05499d9c9273ab1cd470a590140a6c64eb99dd7ed2f8bb8e300bd78bfa70f880952b0d157a715d91d0137ed032) 0x828a3999466c60fd061353c392fe19168615653f1eacc6f42eb1d9ce37716ff91281f06bb8bd51c70f6a4a57cc09846 0x63317c050924287ecb07fd352ca65750cb6507255f09257d1020568c8d2e69ece7183fe6452e396ebe94a1f23298c3b (-0x156315ab1ae2f63de92c687cf8bee8367f823db0bc86cd035d6493ec3ab3926a7ab7d7492529d9af73f2e8cd82fe644e) (-0x10d6bed95a88332e0fadf9b3e731aad201cad5e6c7817579e5368aed8ebfb793715b50bfe62473ab21b619bf3d17ef3f) (-0x3c816ec1a7e63dffc282088d82bec35ca44744cf25ebebbb48e1ffa310cb122443c7e77da491a6190fa966f9e73afee);
Dbl2 0x1902b1e10713c8d95829b014d6b5d3a93563b2103c29cec1e7983befc104f7bd4886ad3a08f8bf2310745715d8e60675 0x142c2105c569b0e7aee457f14605027ef09f9b7d03fcc1c2c81c0dc22eff61dca36ea27f392c934ad398e9471a2a3e6f 0x265c2bd0f0fee929a0dddf996da62b2941cf77404ed9eb0274eef3a35f1a9df8451fde27b61662a3546ef32259eea643 0x166c4b715cc245ad528ce84cecf44295ca3febd2aebb70680cce212c47f2e6d8fe3a1ff79905460ec9ee02785e75ba9c (-0x86809ef4d0df469eda6146151a2c4fbea93ca1f7b6d11129237246b77ede6aef3302b5691308ddb7ee5ec703444a594) (-0x26cd9a21311221847521bdd1082633b02249049fcc94e70a5fd32376dd522c221218abe1c8aff3b0caef6295203c74ce) 0xd02b69d593c4aed5f935560f89eca0a1033e6830a871a10ff8245bd6ec4247150cd86311a894c9e4d511e3e300cf710 (-0x823bcdf05b484adb106405cefc8f4e7d986d52c7b54c2f368bafffa91258c09eeda37ae0d8bd703f9489b80023c969e);
Dbl2 0x27b1b3c904791e3fa942dcd803b24ff12a9cd7524a26b87c8dd9dfb56ea54ca5c9d26e68acd42eff277e12a1c665cd8 0x162f5c264c2d2728aaa1f652ee6cbf6da2000115b0cca0d89754d630e027f9217dd0fba67a880435688221e820d4164e (-0x10d3a58bfd3f68c94416741bc96f7fcafb080238432e87e22e6771b791d3f461fc1dfe54c7e4fbf26fa1e9819d491ed0) 0x4b2a8fe165f9f4aea3b6ad3e66a6f62013c9dee40d1855654ada6c1a57ff5e0b732a28769ba4fdf503133e6aef26c74 0x12b0a726bb9ccce76374b229e6eea536b19b9b728cd0babae2d80fa915d674634d070355eeb1d76169d49b2c6f998ed6 (-0x43ba8c6507350aa7a697f0c8ab2cdfcf4b63af4789e175bb65c25fdf5a7bf733dd9e38d3d6155402e8d16f8d855731b) (-0x564639a41bc34da71bdfac7636852ffc4d57d002a84302675439e9c22924cb250719e221cc1f25ed0232aacdcfc0d42) 0x3602908f3e902e4d6265da3b5468879abb595780031644cbbcd62f4b955493cbb9d7b35f3d96c4a204e890ebb2ea592;
Dbl2 0x13a3cf500109646aac4d69e33e86b7943ceda2cc678e671964192efc9a09299ad173b34e4a074239eac7dc93b8113ddd 0x12f734fc3463dc7adb90dccbbaeda04445ec73fe1fd859d6076071bd0d45623a4cfe964789c20af4b5a694d4d6d9d45d (-0x52fec4d9b84107a47a2701eb9538965e706b42c46d071dc63acfaa8f9aa896becc72e95b69fd4d33674aa02935bfbe3) 0x880e8f0b97c44c2d5733d4e3148d4aa3824dc07fd6efaf38f96ca510812a7668cb3f10cf68afda184de51d7f9328b70 (-0x1003e8fc2682b7a1d92cda78d2ae134b7e5258d7710c5a66eedac396b8913a60026d370c7b4e5f0c9da89f8f77eed5c) (-0x1ca5dfd322eacc6e83aa1995ca6638fc57202a10b73b7968342ff5df83a85a4d349ec034e7cccb8175b654c28311d528) (-0x99e4fa5ca09a3fb41fc44aeefceb7623ba16abc2ed425dddc0cad1a68ca0e18f7bd3170949e3851ff5c9354b0bc11f4) 0x3bd571f52f331e1916c45ddeac0ef71fc8edeba010e83b1864b98e9f0466d341c4c4757feca109120a20f27f2837149;
Dbl2 0x65c82633f9d4d20c07f6ad4f79c2172e21b91ba79a5ea2dd1453a4587d6c2ca2341043e1ed40e3c2cfcc055cd4958d6 0x18a18bd0be954bbff600c7c1403276e7635ed1cd34473d3d086bc2e62775af5eae61d9aac8398341fc07277f183c17d5 0x3227a63bd7fcb93a276da615fc24a1cd95d6f65c9b64a1ca4fef591cafdfd23daeba428ed1549973b7180086ae989e6a 0x1a0bfe085ca1d0c3888a1e97b7ffad8270d7ae16f2c786cf8879440f4339b494bbba04ebaba88262260ee3f5c65bcf6c 0x15c6345c62c131a3a6daa4f93b7d576852cf4d6fb37388bda2c396019f53522402d2bbde0455641d0c46ae907710c9bc (-0xc0d087b49c2811ac7408675ee3db11c616ed43fe0e971b892a0a12fd6fd6fff59ee160f17a461228e76ad4b90b433a0) 0x4a164c9c2036a6da20fa0d4f575517a2fe6c5d9711cc7faee5b26ba957b2e2963b548c52cf1757809776a80970b39aa 0x4546364a4e861be20352e5291400874e4e8997cf36ad21a69965287d7913002572e636aa9f8a9f3f2ef65cca5caa3c0;
Dbl2 0x31ae02e34d7d21957899dbef96a7955cf8a3345e89477c101ffc8c27a2046327376e250e6882416d7bc0be138e4eeb2 0x1900bee131450e7d7a914ea489fb49e1a36591a6b189f964d0a0095db108dfd24e92848f148232d34a8da37b7adc99a7 0xfe3baf16772acd47ca4ecee9dc415e48616f08e95ca17737eb70fdb303b0cb23192cf90b2905a48029d59e7e87cc5f7 (-0x684ef7ede3014cf17c1e6b2376f19ce4f611518fbd666bcb0188f06ae66b2fafc5be872faea30f8bdce419ad8517d08) 0x17ab614c2a24754cce2c4277daa2bfb80810a86cba3b1d86ba7972b4af7b6179d85b3f7a6a6c019050eaadb284177399 (-0x5f88a1c4c0a271a4def32e56867586c5840489432624acc9e5398d77bff9d7f47df9334ac25fbef3357291124842de1) 0x9f44a774ac78da1baaf150f1144c6c6862103be8b022b1dc8df0c3490b42bfe2990d2cbfa12fb3cd2eb6b76ee4db5f8 0x795f1c949e40bf8b7e688efbfa0a4c07638e4a50dd33651859e58260a12551a5fef454df951a062aad44509477ae460;
Dbl2 0x141accc8970ace156fe95a366883383b5a445ca79fc407ee3f3bd12ca9ef48ef6199a7f46231a3597b09b6d5fda5c712 0x18b35a8fd65ba4cbd734a0eea368fc9a21efabd91ace37d98ff3e0c3028ea8f24ee6fb30e0c805067330b20430c585c8 (-0xd8f0b895eb27d4a7e7b02185a4167b0e5c3a7fed17522ad0abd65c3834649c40c235ae195fba96da203972fa7be690b) 0x11a9be6b6125259aa27441ac00feb2b69cd0e1fc4bbcd83d37d34d316dd5a871f353a9cab719b999c0cb6562ec5042b4 0x7eb34c5d06e68d7f9cfe819f7b7dd92f699e2cc8b6e2e301b667688123a45476efc9d3669a76816cc8fe71d05c1a265 (-0x263195fc0f9630a0f92bc3ab41c2657d0b32ebedfcb0faa39afed54596b7c1b62bc9311c47406c6c6f5ab4d63828a140) 0x9736e97ca38ce375eae6ffb137dff0208876279c9d0c19fc167c1aada8c684d5102b889d661464939617d596c3f0cd3 (-0xcefa8d216375539c2168b2e11f4b9adc01f4415d5020ada631830be443ddaf1e61d9fe99254c0ce0522d5a7516a80e);
Dbl2 0xaaafef3c4298542248b3a58135c684f9ac0e0a34315e044a7d66db543d3c6a626f79dea7ee6a5f3ce669de80b52ba42 0x13d96385b510deff2f4d1d32ee0060a937926e9b6d6adb90abac56946f0699334fa765e60e0b267ea1f8e8dc2b83d62e (-0x49850674dc66638c0274a7f129f2e0108f843be48150301de3579bab49e5f00b531ef9a3e80bcbd788c421ed25e55e69) 0x1fda99ccefb0e90109a33892fb1e9285c65200073ee5232d4bf05a08db89e801af3911faa75e5b26d184beeb0099cb90 0xac64be9dec920a33645d60bad4298e3b9efa94c8a1b571e15c2bcb2353715cb5a001029f2b12661184240e88eee5232 (-0x10492d57530d8bd0f1f25c8b88afd0c3dab8f3048e91df83b7bc304e5d7d3cc4cf875a804874c7774ee72351da8a3fd3) (-0x684d4df58f794feba5e1e6173f8c511dd54cae06092d43436bf80b4b79071d284dd4b2bfde60c428c2b0ad1d3651aea) (-0x7745579701dce3d8a79a5bafa73a779cf3e88ab70046f52e9adadb8cd55144da4ae7025c3dbf9fae8ca346575d2e31a);
Dbl2 0xfc955cb99bde258d876019716b9fdec9340c8f3aefa561ca412df73ae5febbec296a5fb95db0469c00d953ee476c048 0x8fd02881a5331dfb0922a3b31368cfad1bcb8ef19b9d382fb88180286d20648b40806c083c7d7a804031b10c844d0cb 0x4c1e9d91ed7f0594a41734c7cb2b5f5b6d41ecf374b75cf3e17b3ab0485cf9f70377084372e764785d17253dc78c07 0x8b0f7d8ffe5f868e197eda4577bdecfded3724d84ac8300ac0ac3ec5ba56dd59d670bc86d0af1a4da3e1f837c58d3c8 (-0x67a0c59ad7196f5d17ce0d5b3b57a92bdc0a9ef352d1b8ec68bb4b9a6e76d76fac09025a0a4e1598379711b9ef029e7) (-0xae9c46bebcfdf3741ad94d436019d08c3bbde6ec12bc2ba07d5e9f5285ae523a070ff5bcf2215859559c9d628ef2fb5) 0x3c88d0ae8d95eb3ba851eaaf9d8e3756aa1a783a161beff3bf2dbf72d181ff3250d95658d9fac309cc345750830a07f 0xcea71011bcccb5fc4d2720f60384e99e55c5ce42b7952495226c36232544b384f37c0c6a236271380391a6817a2e225;
Dbl2 0x5b8f08ef767ca4cf5f36622b89e509fc5decaef9cb221f15b64b681867d0f5505b9f13931f476324f857ca9daa71d3f 0xa3b4aea7c32a8fc4d9a662b03710c6daa7cac50a8ca6de8554f99004f5b1f2a21b026098f44b24a23750c8f0fa6270d (-0x23821548fd07e4cc94f9979d4adfd59d5bbc8308710b7a64db2b1f3c0c3558a461678af7e6217654c737b07b44144201) (-0x62059f98838c6fd2b404deb8ae4d90bcab30b897a6c76bd9f4f487834b22ec1edfa0216f9861676d3ce4b878946229b6) 0x2c437615d09f57210544e6148d64eb0cb740fbb55ee9c4b7536c4efb61f4c01f0bf5bf12a82f4cf12b6e3d267b491f9 (-0x480ca89bd456d2b80e1fe2692588f77031df02a84fe0030ce0480be73fd6c88f672a8f29e552938f80386969f67ac70) (-0x26f6d41a2ebf4124fbc3cafaa1d4b37a13e8246a12a07eac55bf67974f50e07fa8929da847dbc6ff722a43ef6dbfd62) (-0x5571d8051e7cdba8483959de4d9371704bdcfeae01adc056d8bb44e71ee2068c7e3798ad4436b9214976e6e707ccb94);
Dbl2 0x9a64184b516425353d3342b7f1e2595a7bf3cb9644dc3a23ae401e3a2c43950dd3e14a5813cf8d46ec722731cb2e790 0xaf426e78303a8cf5a43520e362a12402d4cd3c50c5a5bc14b9c5ee3da9ae172d5612c391be4ad4c913b7f23ef8afc45 0x1857f44869c860f9ad585ad9fe2870933e709d9df7a916d07c24217368cd588b9450ec258ead5226439485193ce0ccff (-0x1f3869784b7f6a1bc34195b87681b5cc7710be3d36985772417e1bdc7cd0f965aa594c025f44ba53d3a8389de908a63e) 0x1088be0f2b4a159a230dc9a7b14a6a2934571f3715405fa0224a569a96121264863bb9fd4930da26c6f9ac25127a7c3 (-0x821166fbfeb44f2290542214e257de48e1bcdc12831bf0d676da838d27992f4203a69d2ce55a65017200a82c252a070) 0x44b70a7cd0ef5b74a5b412ad202d73b138f114cf0e1adcb6c67629fd49b0fb41da8eaa797dcd43e5ec10c7cfce7765a (-0x3ed39dc66cdd7215f1f4bd3cc5ed42365833184e8b5af0ec40e7ab318a29465b2aa3a008b64ccbce04e87b313c17f7b);
Dbl2 0xdd9144f8c45e6091a6714d772bf4739ae7b1a8652c823a2aca6cfb5457ca1adc99138fe3c31209a4897e0f66a542078 0xda6ef8b0ede3a09d1a5c00b21acf101ca7ff6cd9129e67a30ff4bdf679bd4a2b87fa34cc8942e9d5abaeec4938f2308 (-0x20a9a5b23de165748a90383b3f5f2acba7dc5931d20e078563e8515dfdd9758555eb2e2ff7d749a863ba6bce3678c354) 0x5fa2e24b8349857dba4db823f43a963d63adc2adf56dac9505b727faa5b72d2363a0f88f2b7ada91e780d4d04b6fdd0 (-0x35073271837e87d4e9693b4084c8878ae90b9d4f96d4cdc93d4cf4de8b17946226815209a33f2f5f52eb3cbba8cebd) (-0xe8a4e3b0f6ab8acf035a35171f5d9f479282be0d24f5ffc7dcd5331a3e5f45e8afc6d92dbfccdf660a2390686e6ab72) (-0x7a5ae880f807a5e9662ae32da2b31860e81ba9bdd0bde7404b6ac5d6adda9c9f51b15fa022d93518e26910631edbc50) 0xb90dc6bf98d47a911898f5b16a089d1e72468d9e581e13623c09f6cf35640d0037bf023951ca98f5e05e887f5118f2;
Dbl2 0xea4a92fd6a7fada6c37e836f596f65d4b4a37bb57a0834973113079387e96d6d637efa84423b0a3a6bf47efd924c3dd 0x5b7be247f2850b9608773bab9b9db45ba9d0959b3bd8de5770a36eaa83f3dcc1d95b34760a0823f91354f28328297ee 0x2b1d71ec03fa9e978821f28ac1154e6d27455af7f2343cac5133bea7d102de68c8ac8c2b76b31cf650d87453f6822589 0x8fa6ba362c708a7acec8d859938e7583cda4dbbfc2a49627937ba55d9f6b5cae045498dbfd7acc6be4594482117a32c (-0x6fd100d5aaa270c73b0d269ef09906fd9bece281c6e1edd72a7eb708947fdefa9c0ea26ca05b854fe2ac690892f1bd4) (-0x6707edd6e5f37872d31de50f302dc66b2cc7b38025845380cba99ae6f488a02a66bcda06a9e646c62734e8732d8d21c) 0x23b856761f8184f4ebf5a4c1eecce29aa31a94bc0e94189e003a82d0d97b5b7e49bea05636ee7270807b3d9e634f7cd 0x5ae715fba56408cb5205bd453a4b8ff87ee22adf204fe36a5b56dd6e2f0050fae7ae118c859c5f6813ac97a529c4385;
Add2 0x1142615b871d4c4963ef8ed842f9a579c71af04bbc4b9297c161b22f8b6c5a58a8fb3af7ec52a6b7026c9e97f3d6b0f8 0x78e5e678d7c7e2754875c536346f6c41cfb8f5fdb95af2c9163b27340c90d31ae05f3aaa202c3156a09893b72234b5e (-0x56f898decd9acee58718c6ac025ea3e565f714988ab99253910d6cbd196ed56c0c24bcc0bb9597a3c95aad47e3024d7) (-0x4e02ee13d7a3f087df7aa39406660ae5c286d506cdb35be7eecf60d99e13b8524e0159309b3fdbd7f58ca6fae70290b) (-0x9427523bafac5f88b67992cc44a225df899cc869dbfce49f4fa9e67c34981191fad34d1bc4ed1eeb6c8eec65356bca5) (-0xa07bab4362164a5d6aa280d180bb8bf6a1fe3da7afb27095fcfc63f84816ab997f3694a523acd64b8ea5cbb9b6b9659) 0x500f323fca24116ab894150e4623e2094b51fbfd41ae23929054adb7bce0551139c272e8487a682211def33262c3995 (-0x1168e2d53cfbe86ea5092dc3f81d2db1a359443e20f70a41966a9905a3b1b74bf6a77aba111aa5f7fe83dc48d39499f);
Dbl2 0xa0bad126c265d46d51689b72d7dd2e4d3d0945ac3d9cb888b9250b2bed82359a757e1269c4a4d3c7bb2576aeac0337b 0x133a4335f59c0259f1a3ff195a51b1c4671888accdca74afa50259b7484098611c2cb9fdf65a98dff64d2a0fc947454f 0x108c012ee01686a37da034634d15211bfa8cf2d5e6643ef5f36a48807e54dcd58d22ceb3fc40e362d09f3c68aa3a17cb (-0x30f8884a1def61b5f947d44a6a3a91e4ca3ec14300b0e0451b01ae4c52c3d3fb816bb4ec5a1f99ff218375cf7ea8da36) 0xa5614e7784783bd464d169da11f60ba3ab5246b5966c7d8be2967b5f2ee6ff0b845eb60a80cf87d71136bb589693865 (-0xedb038d5684576192326eaac8986addcb1fedc4b897d9fbf4d72f1dea833f72313a7dc343bc0885821396933745bae1) 0x869caab28e99b031afbc65b0557e68f52e51584f6910f32b2c483c3869d1c8b8892de71343720bc85c935213abb5e05 (-0x116d8318319219a1f2a6d018188b3940d617fa8b519fe162d0e1adf59be21a2b0e2e6c41bfac5eb9fdcb3f4a782be930);
Dbl2 0xfb69c6a2cbfc9dfb9b0142745ea7f0421cb2dd4e5b4ed7b1142cd575c788d8d19a24ba9dd3830612c58d544327ca0f0 0x10635d3a601f92ab21801ab8e85be88d689d67e6e9835268f7cee1313a095fe9e31b7072875ab3c75d3a4e43d10b2503 (-0x1f001583a588952811247a587fede4b5ede1cbd3a238d8da97019c1542fa4dd31628662686876e1e5f2c9f2a59b6982a) 0x21dd2a738a013bbf894dcdac39f610909062170b28ac2e574fd299d449e9381269a939b40738c5781d4a72f0c9ab6e7c 0xd54259f0d4deb322869eb2fd24d8b8e2aaaba4c8f5f40e73b4646727e6205c1a2877a8aab606e9df3d492b6575ab52 (-0x13ce31a83b5704dac245ea287bad50609f5fb5943573f4a6451211295b0e4111448b11b58e72a24c6e128dc6f4766556) (-0x9c4b6f8707e1dfc1e97bed12442e4720549392ded1f7a5ec5456c0fd14858a42baa13bdea7075af97d8bd8f47268f6f) 0x9aa20f6d56452f7ce7a28e9de62dba06b02f433fac19c0e7b0c73fab07cef38e4b15febd6d1f959f4e376e046c4b1f0;
Dbl2 0x28a36f542a28f6997a811fc2ce6cbed2508c5d828082677745110cbba12e028cd54150ccc1f58585e1d7b5bd45c4c1f 0xac2c40f46751f043fe2833bd583e9bfd967becef21bf75f65d407bf06f076619981fe2e541d567dcc7fbea97520cd94 0xbb5e904d3d9cacae8f01e0a65eff0e9853c3aea997f8dde1f5cc5e01b94ac148ecce0b0b22e33cf0f3a22a39af2650d (-0x75203c44d9000aa2700e7a3d114f19b33d31bf4cffd82f6f7cd45f783b014a85bbe6f9acfd7ab3e357437ba8061a072) 0x4347162c27e490bfb99b9a1e88066b07544f1763ff19c5262ad803fca8364ca8cb6b5d51f26066b0d3f796ef37d5ca1 (-0x21a21a38e40a5a1e21c3b3c1caebec6e3d18f2f6cc1fa2b29cc6c868168feda0617ff4e67bbc2567de4aafedbbef732) (-0x113ae08185f83c1bb57e05b2434a58819fd8c21cb2fb45ef9e1564e066a5e969525dbf271fbab3a7e318c4ef986d89e) 0x16e2dc80f8040d2b510f71ee069950e4c7df7eb7d076487832e7921a7b382498dedb6c848a2a34ae7fe9d50e2de8c9a;
Dbl2 0x125e8f976f7536a2e85ea3cfefd8d2d0063990aea5570748e35370c03766b0439ba9bc0cf8c9e8b4405badfa94226735 0xc0299d504b8b7bb5ff23b7fce15918bb8dbd901b96858640d5946aef2f36a4cb42aee9b8f2d3d1bd687824c71ce27fa 0x19dc2e8b971462e6cfd3d119919b79e920a8cffbb7e2a4a1a9313b36d3a74f779bee626fe46294a3bec22de0961a3100 0x73491c5967183cd3325643814e43a6e50046a3f5fd446d222f1f014a909e7ef951eab4b0cacf363408d8f05a31c2126 (-0x76ddfbe98bd2ea34140fb9754ecac673fb8e324d0be246445fdb4e7e3efdc86fd41baf3a737a4c5b55be61d2120d504) (-0x10f7cd65014f341dcfe0955641f95740e026df09f8ec751a975a0ee77d6b25ffb41f7b9dc30c3d6f066cebb456cf06ca) 0xdf186de39a79a78404f87597a66917e2083be78293876097a5c6ad8f36f6d57d3d35c66829864757978d8e120292e7a (-0x2c6c3642a75ca557980f59f395c1b92b449ccda36c4f82ac88536fd77245228cad77f9768d5deb65bf3e100efe84610);
Dbl2 0x182115eb42220d34f08e487de33ed175b6d1a029dda7c9aa05a1ef8d1d2c315dd8bc62125863cf017f4f31c0054a3612 0xfc2db9cb25d08faf7c8327f5daebc21a409de8913242d73b8d9e10bc6022a0994e39a0b90bfad204b39a3cbcac7b4 (-0x1864d1407c94f464e34d410fcbca13b09669b130df92119d25163256c98fe922c3dc4a1a25680c110d7960d021079e99) 0x86b68905e4887dd88ee60f722156a42b0831ded3dc45af0adb84dedd31287dec9be6aac8b6bad650d87f59a64fd0c0 (-0x1663abe82b7e4ef85760815110a98193e027a50e4678c1cfe283798c76449d145dee1d380b7237d960b2957be1c7474c) (-0x1d3fe0a7ee9102b0fa55d023e8509a9a078e63d5d77c5a4fffa6b01c4fd3c83b0c10a8aec34d9d03ffaa8706d5fe55) (-0x8a59b2c3f50f0a2a94e737986f05e94adae625d3aa61a61671b04fd0f6c39e2b8c8f945c7b12b03d842926f1802d02e) 0x202d888e126100f4ef5282eedbd4bb49fcb32c1ab5c7a9bd1c71fa1064cb3ac4a4368659409f0dc928e0443caa9d57b;
Dbl2 0x159ff2806d40ff15099d52045de59d8956f5a84da299063ef6c216059e7a2a6b1a09d23cd53473f5ac7b5e99de412ea4 0x69a7d5ac5a38cce584e0b0f05b60b25f325eb68e4cbd45d0014e4ca22ebdbc559a20177fdccb0d7c9716c23df3ced8f 0x14ac9a67dfd46a348b5619d131c0a905a48b9036e9d18bcd38f3bc42c444abdee86d11b3dbdcc4c6170731f1c9ec5bc1 (-0xb2516bf1fd603029c26ddf3c608abf805bfd2880aec2926cab34d9db6e53c543e65b4f353606e32b5aa6a978bdcab6) (-0x104e5a3f255691ea11270ca550bf279acb64b62698eb5aa5426895e7977cbdd56ea73d1e41709acbe662cd13c9ac0bab) (-0xafb95f5e2043ad423af636d91e8c1ac570a6b6cb7ac0942f5a22ae4367f12330332a7cec5d26a23c995ccb14ccafe28) (-0x60a2282d4379324979967d3c7a3a2c2e2453259d08924388c2498a6a372e0a2a760e630cb4de5f40774ad2ca54c9844) 0x4b49ca9ea4d4e79ca17653e6f11dca7352f027180bc0db1221658a2f197f914508101844b4f5ea8bcae6c1c95b4a006;
Dbl2 0x142182d337d4bdd0a9dc0152289c80bcf75761bc030bda9dcfd112580006deba5077fd8a5edf9450f71e9104f1c374e9 0x113f465ca312058e0cd541d6b90435a9e7260873c34a0cd455f40359611c687f96c91dbee3f1affdcbbd3809a6881f8e 0x384ab67dccfe0cab8fa524d22b72d4bbd260ea6ada5e21fb21bcf79c8968d8c985541cb5b817cb37cc77debb68f6f5e8 0x1650a21b42493466a12af7ce67fef07f74e7c4f0ca510ffa4b6a59709871ce226b8eed722311581fe60f38b4d2d0c4a8 (-0x425218faf152271ac1d07d8566a754139e50b43e2ca0bccb234283deb3cf536aac1e2852b29b78dc60184f617555426) (-0x1ab417438245c74b8bced631fa0cf32681ba5ef9fc450e996a69265c6e3d9493b4b1b0e72f7e9745d2116b7f2d1988b9) 0x17096dce74a025c6b6a3862cfc3c0ad5c76976bcf4bb4ac9d129ff3e07b9c258bdd72e403d1290c1dbacbf638121d70f 0x14a1a9798f91525d208e5e9ed713794b43d9fe5dd79935038b2d2f21436e2951c261a6b8c468df48cd81f5f17b85776;
Dbl2 0x10933118bcf1940615957a6c1c7bca0054ff60c0db1566767322d2c5cd33e33d6fd2e0ca2639eca99f5b1f6e6d095faa 0x14ef91f0b47d2bf1313ba159c090bf9a071c2af83528b3613d49af8c8914a7628366761443e0d74cf14359d83cc60326 (-0x3693ed704e5356f991959a9f69fbef79f55cb44b9ba4850ceef25f846b200f1be8a73e45bf8b2d5cfb8ecc15e1ca2d14) (-0x185dc8dcbeb2ee9a5af3baab3b0d48c9234a6b3ff33f67df17c86a4a0d8dedbbdb6073913c053a6a767f77434b4c122) 0x64a5d8878c23920ec6ca30323bd41d8d160914aca0cf9e0a8dd271c1ff415fbedac2766ccbe62e0633577fc99e420f1 (-0x1ab0571d54be275a611ea83f0b0c7b634c1e44f98a2f61bae0fc7cbc430075c28ef8e9d4b60a036e4a94c5db5c4767a2) (-0x3ae441b2ec047334382810830604edd7ceb0df8016be65dbb098ef329fd895a2e8e2efa5e7bfd0d926b607fe4445271) (-0x7f9761a09c7da62a4bb821f3af5a39dc714e3179014d78c6b9cf08af2e0059ba004255426840858e91cff9f22cf495d);
Dbl2 0x5cf357e8473bba00386d2380ef2bbb3e118498031e2471fae5017af4c09ed67c5c2e5257a3deb7872768f839060087e 0x82938f41814229b1224b32b425aed5972aa5f4b4d21ffc7a3913baa2c3f8f7499ac76a63b373a0d0a649113f5c7b2fe (-0x138676d177f023a70433d66f944a6e3d7fbbb2c28908e7efd9138cd1885bd52d25196932684c437df07401702fdb58b5) 0x4d56f36c60e93b15dbf94722efb0cf2fd5f6bd977816a084d53e7689b8d1c85ae922f4f8692362e2892cac7ebb04ebc 0x1436cb12d2150601c09dd1cae19cb8d9eb1fac68ff76244859df991de214ababaa63c4c1ee2d315f600f775bd20985b (-0x3a57a136ca54232097aec5791e40549c498a3161d60d5142ddf76de84bdf2b86ca58859fe1366bfc14a1f55c418ec3b) (-0x29765464c93fdac5af2090a38dc873e58f87cb634e2d318661c57d6c743ba82f5afb242c4bbe8fc1b478e7c75135084) (-0x11939b6db432459fbb85b2169e42753ebb1824a230c01a383360ead2874a3d204a1b1645686a0002a674ee8e48f7fe3);
Dbl2 0x13847679c97ef8978b3f64c9ba622ef466154b88c6206dc00a65c7c83d9e863106be2e6e6acbdd11b2e3bf3c4e9a8fc7 0x5c65be3c6a8b37e95aaa4725d46595304e94133e1524dc41b86d1ea5e2cb0e5656952930a29270a27fe8eff7ff52747 (-0x6118904d640ba1368bf05d5e1754c8d6ba1a29720824f3e9e5c370956a6b00165cbcad40349a7ac20f8d04690bc82b4) 0x14ca9181140759a1717424eb8dc972048e91b20c4a2ef07dcfe74bc9f2d7cefaa4626d83793b25d184ee0a50cf58bd06 (-0xd5dca3b9c1901205fa4ff8ac7e75cec2e612c2ce0760d38e8498eba2b168c865732d5d38d651688798faac0ba2f0e90) (-0x8ab2a0498784e7fa7ae4591943f1baf1fa74cef2b5602fd74d286d1bf64a96cdb68033f84d3ac3b89602972db5b5839) (-0x567448b5841e075295c5a7556d04907164fa27cd28498460e7f2f65d85dc724db7a5d1fe1ed1e065631064ad94b2f4d) 0x70899a293b33934590f91b02c0437752145443dd167b930666bc28a5b18683687a528777e8d51ebbc8def663c01cc6e;
Dbl2 0x78af2f8549231aa92bba1b374d54bf4748e38d3b2c782b3c9d8a7b7d87389e25b856b97ee48f089c7a4594a201092eb 0x157a7e87571314c4eeffcc641151b627d67176b268c6b18bf425406455688e07fe496eb261acc46ca422be84be4fee75 0x12aae5093abd8e41da0d65de98b84e9d1ce4cc112ac942e2fc22d6295b1f9b6e284909765cd92b67cfa000d97dbadf8f 0x157412669290c731caa34904de7814576d6e038abca9a5ae233264de4cd4a01fca3715c7bdcb4f467487d99650ac5cf2 0xf8d7667a5588142ecf966fa7ba9b21cd301c9e46c847389409d425766aade542c537434120eb9e1dfe22f12042ac871 (-0xc75c9145dc3e86fc2e4c846c20d0269fdae8c26ebe676e234003ff69421e7260365b4db307e30fd6da25f9e355140ec) 0x95d384b43e50529e14e545e1a2d158f4a386dde5aa9165202da19096e54683b5db493e510ef16aa2e87ea9ed204ffd6 0x596d7b371140faef4f7dd590335e2fbb42aa87511f379bd4cb0ab984fb061de8fcbee404a3d1d7e9ddaed1ac3f132e0;
Dbl2 0x8f022244af0b719146e8cfb7409e84a31ef57e217e3d45daa059fc26f53a4b15d861e5d1b9ff207335fcb7b28f48654 0x72c117c18b8dfa89321c27cec88b9f86c99799b380ebac98fde2d5c9ef41c16128658961fa9d79eb0320e586c2d096a (-0x14676665a93c07bf919e57ba4db156caf4445730dc4f3886c33a78dbb710b077c153f99b95275ace4ce486a1d7eb71b9) (-0x5e5bfb304a64700d95dee65ef73771eaaefcd485ed6f13cfd66eae5812bb122eac4a6bee153276243f1b04e3d04af24) (-0x11810748cb7b57a7838eb9d16c0a3b3e80a50e93355159aadc652909f132141769acf1753cef7d7afe01365aa8c95ab) (-0x4ee2aea302a49e64292762ca2ac95a5f75b025420e14d2bcab1d262c68ec54b660f58d39060add401dfa8eaa4aea5c9) 0x48e77c06e975b55cf94c6870a827d78c0e88133e26169a054fbda822af9b191e5c4f624c798e4dfee19a56279dae9ed 0x1d58ff53abe7b7823ab333a3ee919c6b4095c4fd0083c8c61e9238c8f7a10df981213d3ce09e402935ee447fc394b47;
Dbl2 0x86675ec3781ecc255b9b8f657bd72dc32622552c01c3a14efa70797ab04d5777f18cae0d8934218abbe5eda42e0374 0x99b7b955ea60c02306dd0199067fb6cb2810aa19e5e838d4d7d18f24dc5139d8829c6be0db3cdd784259d6f00a05188 (-0x429d28644dac92fd427a5c5dce733201df0889542edfabdedd7dc729f3faeebd387dfcf30f7dd1a774f8daeeaf7a74a0) (-0x1027197ea722b2ea2687218d4d36262d39f0fe505934654a84eb696415d160d853aade2e9efb5c73ed8c4fe55bf186ca) 0x389f3e8eebe182dd3a7f45bcb1d2f413f64a45dec8f9d2eb582e282fe7427608fe64d8747ca7ffa293d691673aa6739 (-0x634fe5d4b610d8c7bf61e80c6bee52bc0a8f0e0c4ee23d94fe52af8fb8c7af7e9bc1622a22e889a59bd85b6921a21c) (-0x34ed8ee8dd9a1a5a472ebaabd4e272a4ad98a1ba0e0969c4422068b8cb36d5876ddeb71dc841b56b6a7c7b6481c93c5) (-0x3ccd3a718ecd18022a1d8ec20a8f1673c8e70cc16e2c3e75d3a8b600f258bfa4ee1aa57ca20c1bbc6c1e5e4a69734a4);
Dbl2 0xf16056dd2e8b5f8240d4ac75aac0cfc9b43343826136afbd4f0931c31459109811008d17464425eeb75a1d3a3486fba 0x134957b7abe963c5d074abc911c5cbb3ae17332e06f5b415438805278ea9e18b001cf7daee0993ef125a22747400b5ea 0x1672f61cac59dd7ac5897e9f814d38100ebabc53d5c7facc75b5ad6daf8234a362aa531c8cd575b42692e586be2e433b (-0x5ab41b7e56e2511f31afd94e7144965c53c6e418038c19f8a17bba3390c6a046c6707f28eebe39a2e3ffb34b0c9243c) 0x58d5e251b1f3a62517906d47c805f6c486d13a1f5d239cdea3087a9151896716033a96041a8f2f94720360ad0f846df (-0x1660aedce762e709eb002f2d5c14523a9b10f1fd6d56287fa6ae3a7798c0f7ccc7b71abb163c001ce8b61d425e7686ca) 0x64e0ecc0c72d186d4ba8ee4b205fcfc5fadaa1261a30c524d033d408d2eecafd3944894666eaf4aaf087806965c254c (-0x2acedb002b6a8b91a3bf853403ad9329a6cb6752fea0580cd1eeeb70266d47738feb19c84e15306bf7df80ced7bc686);
Dbl2 0x2d6c8112234d7f18ea478ea7df5eabb84672fab4d4a6e1014e0585cd696c72e9adb4736ed72eccb4e30eeaf3b992446 0x444323d14c7a3549b9f6b2738ce286aeea4511ddcb23d59ff0488c63a739029f85aec2295586dac212579b39f39df97 (-0x18a57c5881a8a67c7928cc4ce1d0bc3916191b1bb334b7d2aa142b66a7b4dbe322e8b8dfdf8962bd9d0a6f129de82f03) (-0xba286a441bff1dacdf44a44f93f685a4854f29b68a9a68b2f11c856c57829de14f6959ce0ee7eefe1eb265375dfb38a) 0x63d88e28b580caa534fe255e732b3980ad9619a4a76fbdab3b5c749706a6615de4f429c92524e24e562c1cbc60edaa (-0xee7acdd87b41707c7faef3b629e7914e36298629b9bc62c7f313be84400af07326f629004b1a0d8a79f730fe32c986) 0x12aee60c218f7a7a7bb6810e438b8e97181042adc75b8dff5103dd41710d4c9e78e83bb8a36e44863ce1532b664583a 0x18088f11d89e8494131d471ca1b64a9f18e7f85d881114457dab6e0deba17c1740224f7845b1f018c27ffd7370d23fd;
Dbl2 0x65fb0c0d47de8795557bd2f9f4eb741ac78b510ccf452abbc66726ddee31b37d058d7e5bdda2d3c31051f4071ae2945 0x7f9fda3fa03c5295720441d73a813ffff40ee810a12214b0d4ee64da91ea67b8a4525b4b9c37518dd4a05df7a4d6dc1 (-0x414f052b3ec899e049ff3f43147e4cdb38c8bd237177d05e55d9fdaca51249ecdec083bfbdf63e02336346c583d94bf7) (-0xf629cd65822dd0730ff0396d0b1cbe35ff19913feda8b1b09aceb163495afe58625bcda56de91357a9d3a356ae23c5e) 0xe26c3eeec377f0a9b413d8bc582ccd3a7318cfee7da74cfe3a852a62b2296b817852acce52df7acbb7a5947e552f8f (-0x3e9029007f40688b389613af6a6d6d9d238d12f0df2986c2799c78c6336fbfc41a8a6b706e3ae98ad579d199c008dcf) (-0x19bcfc32308bed39dfe14a9915842557dd0904ce0a1d79bc62ce81ac758c788a5d29e5ffc69dacfb2949d8456d5169e) (-0xc61d91a7cbe7212c9c279555d4d5adda1102c50da98c7393057be7bdb7bdd3a6e27b2324c2bd022264f1617b3e15fc)].
(** a point of order 13 *)
Definition t2x0 : Z := 0x6eb8f401bfc4e62e9ec4ed5ff8b4c850a2b0ed1c1175273de21feadf1dd53610fd4ccf9454deb582c951f9c07cbae9c.
Definition t2x1 : Z := 0x7863b33f669c5e7fd61ac2a04ac9f4ce91a5b012dd1479d89b2661cd45c78e3969075b6838be0ffef7ef92ecfa0b089.
Definition t2y0 : Z := 0xe4373c89afb21b5d2e36727bac0d67bda530dc9a7777cf00bd59ddfa8e25211d35d521e701f5083560d65f0d23a7d3d.
Definition t2y1 : Z := 0x79967f9eee9359b7aa8aa461bfdb83674f8fca32d7f7c0cacb3cb5f51b5e711ea3416c76a8e307380e4d29e084c0a79.
Definition chain2_13 : list step2 := [
Dbl2 0xc2be4bd3835cb66af350820d3fbfe4e2dbee2a052e63cb9bedb3f09595ada60772777791d6592c9c3e0e076dcea98d9 0x19e8b8bbccde4f71f575f801cf0209a27ce7b7569ae2932ec6b7f64ac0c2ee589a252f0f6fa77402b4190d752bf869a 0xd69a404decef894fae5db993ca1ab8716dcb74eff39bdf51cb61728c9f50458dbe74850bd5b04a36a32965251537fcb (-0x31fbaf36e65eab012a68ae2d3651ef8609fff6f1bcdfbe2a53203b603fd52e0dd2f0ba775ca6cf3610524504bce8b26) (-0x5989a9c5e2703abb8ddf33f374c50c347f6e847b101c0cf9e097f6139deeb887e536f6b504af74f1faf835f252b6857) (-0x1840fe8000ff614885ac1cc3c5122c1befb6dfcb0568bda1b734e876bc46cd3144e6897dcd4bac698a0f1766212a757) 0x27eae3f901d7bee7ec216f263bdbab9b12a2b10da4972f0aadb83bf92bf08140ba5059a8990c5515ee98d305a0b7fa4 0x75d7dd9c7a51d5d07848b42713f17b5b4915a94137da8ba61905fbdfec4c635cd75e9d3fdd01fdaf189eab303e68f37;
Add2 0x170d5607e49fab814623ec3a9036c20bde298bf73ae0ac639e2bf147b456c0e84b1e80119ac840311dd2bee1f2745af 0x130ed8db85b0e33230dc879291c50cdd66199dc7fa7a34b5929eda0519288eddb893f45dc35ab6c2b8cf00d5cf3c8f13 0xa6abf1168c882962047ea89a144ae501707b70ec93fc9f06484ad1b49fa5f769893d949e8ab36f46a0fcc827aa73a1a (-0x62a054b03ddc9a4ab526822110d5e6dfbcd9886f140ae80e129c2cd02f1398adc7e8e414454187f396f2e7aab31d1c3) 0xde32f302933b171731e1b33d75b180193525cf7e498f7666d61c12089854879ef6e1f1fa17fc83e9a9011536265e666 (-0x21c9f76f87ec0c5c39f2dbd8c4057efc691f2638b9172bd278b35b5f201edc0935a43d80299a705a61bf98546ac0d8b) 0x71d1341d40a26d7ba2fa41ff0f283ebc25120826cf2ce2fd7dbe28875aa6ffb30990b35bc06afd6866868ed75b2c583 (-0x846ef1a49a0720112e7486ee01bdd4b4eb3a3643e0f1077155f095ce8f8a922843b297fb855e688bad0e288346e6f4b);
Dbl2 0x4bc68c13c45d328e9ee847245f0ee29fe1558cb93079389f96c5cd6a0481906839dec18fd7fbf44a10939c63556f017 0xb22863e1e0e2d7ffe099ef20fd1caa939f7cb310feeca17f71097258cbf5f09c9fc0657fcd0afd389b8373bc29c1e3f 0xdae4acc578cb915a38c6553fb7127a76c58d50dda088fb07d919ee76eb1271402d9c53800f04e75988bd7d21965f8db 0x42167689c16e541c505aa3bfbc33aca3c9d833f0ffaa346540ba66bb3bc9da94a23da7a006afdf65cb99f54e6c79136 0x3e7c5ac03c82bd417422fa46931d7ea810dc358ef0c46b9239923d93b27a29fbb194d4d298d6c9b015e29ab91c1d3c2 (-0x40e4b93d85660a7f692590366bfc545f350150757afee44d52cebaaa2db3496da6dcd139f1848ab73dd10b13d46e1bc) (-0x4e8c6cc6e438bca60198dfc1c0544a782bce2fad091b7759a12a6494f6106ceddea70423978c7671d11ec7167650b8) 0x38040229f07a0b52e3c4ef371f2aa6d6b93628d78702131913f6b562091fb73882404961033c640438a4983799a6323;
Dbl2 0x25d98fb772afe41bc13cd04f38c24c98ea390cccf7a0723720b9c2628db6635625950dcd7628530078aaa8b0aa1ea54 0x24c60be7bcdc41ead996dfe1a52d4c7675a0c1b6adc92e0fa29a72f12af8388ade0f79cb7a7d1e899307c3cb92175db 0xced009146306a16d432ed6a6a79122d3b597a6022f9d4dac1a3861a66282517e6bc27d60f8fe6d0283145d41c8cf8c6 (-0x219fd03b491cd78fb3818177dcb860a9c53616c69cdb5eccaa7caf2facd6ad022c393893198037908d0f905d6b228c46) (-0x316a32b96ae36fd35a68f2255c730bd15a24adc87d202e0ca72ab1601f0b5bcd63bdf66326ac2c1911b1821b01935) (-0x6b0cd804cbe027180f39779a7989a34cc138fc8623fd74d42c25230fba02046b390f7d2263b21ae2986cce596e897d) 0x60489d8cd4cef6fa7aa199dfdc7386e903d84bd8d80c6f5712ec463f509541e1e3f41bbd024b3241aab4f638c8e98c (-0x104539909de89fb81fd413f65013650baaf496281e72db681d5a6eb224960dd6daad3e10cbcd2c01c96f60d182abe77)].
