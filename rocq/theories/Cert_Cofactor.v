(** * Cert_Cofactor: points of the orders dividing the cofactor of the first group of BLS12-381,
    with the chains that show their orders; produced by a script, checked in Proof_Cofactor *)
From Coq Require Import ZArith List.
From Verif Require Import Proof_Chain.
Import ListNotations.
Local Open Scope Z_scope.

Definition x11 : Z := 0x1522a8a5693443e2de416c49d0f4db7938a4eb083ee190f332969d0e3996bdd74b67d8e0b46f3cd6e7fecd72e60c4bb8.
Definition y11 : Z := 0x1b6a2096f8c3e7106980dbc969493472e94e3e961d8659b6c9bfa056b81f68b921d18d89dd77c885ad4b37f56f94dd0.
Definition chain11 : list step := [
  Dbl 0x197abbcb714ab10e35ac872e3d2f70246d52c40ac2c5f6474662f854eb682bed586cb4badc0582b45f94fd9524d1690 (-0x33531f078b1c764e48b13429ab2f94120d5372e50a1b9e53c1d1ed6abfee3e2ada3903e78d8004987b07b0ea222a1840) (-0x18f71ba674778d8738a95637424c2b37978aec542493e44df30f4a7e59676e387aac6e13de9b3b7956c019370218f9) (-0x8bd7bf77af146ea1be74c1c038e40c820d89069ff629afc6ceb14e1f3e3efd2540600dffd6b217faa5d89417ab1bc7);
  Dbl 0x70f31a48391237f0636dd315480d8f756016f9957842e8561ced473ea9f01d9b9855af64159e39023430609c3f7c50 (-0x108230319e51c5b89cda2b988b189bd516364f16c8b8201314d4498eb4d3f6a1af8ff200ab88cf4ccfa2e7ab4b48bd31) (-0x1ea9944254caea271e17641275c1c2f4b39bc996ab52407835988cd5e4a459f0e4332bcf242f6e640cf482da75395) (-0x1231a2231003973239f88f762660dcde05a6c6375ce210412bb20f6ef6b3a9bb843e63838eb2c4761b630beb9b3c54);
  Add 0x1298c466f9048512a1f9cfaf27248d690b2e359e8976604a839e845107a9bd6c46cdaf9adf5f0e6794dd46835e154b0 0x95ff11e506429cfa46c17e85d37a02f804dda62c7e8448b5bcf441d6643720263af1d105f5e9c2e8a65375e61e0593 (-0xd4ca2fa1eea12fca6620b978492ab44ca99a966663109356019b876c1d1b83294ec8c0c150d7e304f0483aa74a95d) 0x10dba0f2b1b0b789a70908ede1a95a152dea8ea5b2ca38683cbe5cf5393706c8d6aecca9a11cd4aacfd2de76b6fc35;
  Dbl 0x14237606b64f40a253b1a6c014fad6b96b0109fbed68136c78b797da739e85b15ef677e5e27536b59f24138f631c17bd 0x148f6709f76617828af18d273dab6bfe84b095c4591ea961f42f8fd120cc4fb358236113180f190c5a7e35e078a81490 (-0xf98906811909654f1181c69165e52260ce944e3ae7fac3425dfdfa9d0adda63f9ed1c9ebf2835e7a4addb0329518477) 0x902d25776c5d4c0569a99a5950bf6eb87eb1b316ffaf1cfd4a24d9445d0d976e11958db25f7cc8c7e2cd800ce77e825].
Definition x10177 : Z := 0x3c3136f8e248acecbfaeb84a72820eb9bb1fdf571c8b5607f3b8008c623a2e6275daf6b5e264fb41f40b896d6458b6c.
Definition y10177 : Z := 0x141ff77446e90e9b7d9d3f9736bd7c0582fa2b86be9d0c7e25dba99e40325d87533839a6e8f5e23dc3085d079dbfb79c.
Definition chain10177 : list step := [
  Dbl 0x89276c0845e628194a47f63ea8c5d15d8366a0f93455f45ec5c54436ddc14cb5f42deb1ea3c9b460a93f66c9aed8487 0xba2a5b5e92e251d0652732b9e271c7514ada7262eefbea21f913fdaca911d1485df89d58392206d399f090d815b7188 (-0x2d3645f591db7c9bf829e80efadcaf75ba08d7128b8c7e75af42fa3fcc06e03fc335cbad5bf0015c541e14ee900088a) 0x6465756de5e793e5302c8efb251ce71365fc58307f15afa4a3390eedb1721cd6f30e534f570932ce1becb38d36e1efb;
  Dbl 0x19a75ced9fbb17a9f1e370081653eb0d9c336fde42c463c97626077babf30d693105c318cb6462c0e58234c80d02c631 (-0x2dfc6e216963fbd83c84410449b7c91917f0e118cdfd8ee09569f3e9cb7cc6fe86165a5b9867956c80d5ec9466380e89) (-0x194edd67a8222f850ea183306d25e19b7c5a9dfc277584f8c3392b6ec190a5df0f2d944728794956af457a345e612ca7) (-0x58399b4adcf2b654902839723e5fcde1653a7e8e3b37f00c2e5c44014088211e84a4f775d65b54e9912277fdf8da56a);
  Dbl 0x1340f0428762e4920ee4acdc379a2ad3e5907d35dddbe26d744e316500a8a26949b2c505f05ee87cc66babfdd6f4504f (-0x15661f11c0a77874108ae1b2e136a383bc0669e19a42b036dfb0049eafb15e21d7ae81f46ef74678b582dd29ecf74f66) (-0xe416b282d10c0c469ca550518e573a3ec1d4257b5bb4cac21cb5b1fc81b034b3efabbed61d4ea8317cf245f4cc83087) 0x24af13227923fd3990f55859df007bc54959c507e566214f2609b018264250cf51b347208b7d5f019552f11adbd0973;
  Add 0xc47ccd2a0129aea8d86d31555ea17861cc05627e58ab4dbdfd4d869f76e5b487ee5429d9b03b510048d3706f389c11c (-0x7cfe291d8d1039f684db4307de9bb01d85ee2d23e4fe347f24d45f121ccec8fb34b3508dd14a1bba316becaffdc6774) (-0x5cca8b597e809605d6a53d00bffeed6c35eeda1cef1871397e49284b3356a4b3564b7889919875328ff24f410e20636) (-0x8344c872f018ec13f8245c5095676f6911e2d4ed41106b91db53c9f00da2308d76eca0bd2c93a8aa8557a0847fe2c20);
  Dbl 0x1775afb5533ff3193d723e6df9e2c1ef28709ecd336d3ce5a9090044f42635e64460afb6b3712ddc72288e87835235d2 0x9f8bebda85d90f73ede152d4e06afdf207da478a28cf3148d24823e51a4477571712fd24b4d70a95762cd1f8dc35ddc (-0x152a0a2220a182254c64da5b682aaf35bcb0817a30c03819061e545662c320d23acb56740d7c8d66699f6fd64e062214) 0xb08de8a51d132462e927725955324a203151c7bce9cf7220cde534673fe4a4aa3668bba906f5acec84821449e5cd187;
  Add 0x2e45d4afeb113f292c2f7090789464b687667a35554a780fe11bf45f742737f905ba15c38a27df5859f0e977c5b328b (-0x1449839732e27792aabe3e59db8eecbbddd8a5132bd7f79fb83364f47bc1fd9eb5feb1fd9ae476a94cd6e0606855ff9) (-0x5256e636b6faf186b162b33da80632a604197b6e5a6d8b427baa5391367ec5d504a774b341de582e826175655ed652) 0xdbf17f99f49ff59fb32167dff6bab4c4bd889b35e9c7a14bd07e85bd81c37c1f0fa9062d9f7f153d13d95756789edc;
  Dbl 0xa4a2fe1f528a6848d502f9c57fc5f794c6e1c8fc355765673232f184014c1a2bf3ebad55a26135d54e3f8de60423aa4 (-0x31c626b94fe5058582d482b948fbb2d6e2ff5f95f73fac2496a198220cdd58d8778215326e64842184eb534d04ceb661) (-0x4125776fde950a45ca6bfbe58004c2be5dc56d6e3bf6ed1678a94191519787ff159862be50e0f790c4a25c80953bcc4) (-0x6942fb56498e49f998c1c2656d6d154498a5204a81e9c0ee36cf572c41d052d090528ade970011ec0a4eca086dd2ea8);
  Add 0x668e741231595d6146d235c9c12058ca76041d768977418e0c3c2f3ebedd7cf7587e85392e792577543338319f35221 (-0x9dc2cf4380061397b8e4eb943799cbb731855f5c6f79afc4b3f2e282a66f8480dbf393821fdd6da289b0acf7f1f690) (-0x194777fec06502741ba9405ef8ac4f527826f1e13efeed53f894531f187c389f174a0953be75bfc13bc709e552e97a7) 0x4c817d57e6977240cd7712bf507bf8f15f86c52f65cf3156d5d772582e180427bf592722b03c06f76ac956a63f70155;
  Dbl 0x11e0c698064ebd87941965983931bc809b042fd43e138172da354356671e6287c9f9e66914b699a6e076781add2da591 (-0x33d0efa800801d5199c210bc765e417f5526b658abb089e2886756e851a5519e796de7a51130ace4289aa5a0354f6236) (-0xc4a8f99578ea1cf607b93b9b53e458d698a7dc3a5962f1c3b0c547e1c31dbb334c0986efee47e707aadfbd286afd45f) (-0x48ab5b608ed4132a66fc416a1f32aedbb6ecc589e182620e30d4814d8c9038f2ca31a2342d86ea89805806edac99dbf);
  Add 0x6ae02a610ccf8ea8b0bab3342320fd49e8b40b067eb3db9a9c134e8f21c3f77e390ffeced33dfb620d818d9db3a57a5 (-0x3eda16b02d7333d1682b7f324385a9a90ded34c2413a983758b85b5b28b056f92b1f96b620e19aa97de8fd144941968) (-0x1b740ab420a70ec06d53e98c9655dbe9c9d410dde48f045dd303a98bc464746d36a1799ca68dc1b7779a6a24e8d20e2) 0x47d5e2ed1e24fac1b5b9649f529872aa3609d3830ba1e51ce250fa72d6a6dc10dcb4fd57f2db4d79fceb21275c0b13;
  Dbl 0xe7697a1265763787ab365556eede84f7968e17352c49e5b067ad65e6415d507fb085ec9427580a8533d1a8c677aee70 (-0x2b76471baa9dacc5ba4e6bf6b36cc5f49a60e530a179653ce0ca37e037d940f79284b4607d0c282eda2831c47ea2d589) (-0x80b57c7ea21d18a42a52baa2103ae4116f30918c56e11ea076306feb11dc138aff24f5eff1f3da7ac15bbc83f9d7123) (-0x2a00ec81e85e45b139270e65980827812145b84b669dbd520665b1f7bad7096c47819e6137105a54c0f18aa413e7c6f);
  Add 0x1362431ad7087adc0d1cbd7ef58b37e22e488aa48a58ece7daa51f1b0947d3f757695311cd6ac14855432fd84733b15 (-0x8b1fcd02f9db7445fabcd4b02277bf860235927f4b93c6d19be1ba761979b8ac5fba9236542eff20dec2b186c95ef8) (-0xe72ee72ac12b7b6475a17d6b5b4dfed371b62dbd5f07118bc1eaca3b6feaf9bbf99e92b929f0be836ce10b914a351) 0x1dc1faa55a80f6fe6c23b16bdab46cafee84c737d17d4e5a53896d9724c076492ced72f5cde0289abee36ac59782bf;
  Dbl 0x30c639d7482e683c28ab79bebd66b98895876bd5330778614ca6d413398b8fb7ee20bd19466c82addb66d78f71d8ce (-0x24b1c9970641fbed918429b2de35e125f70e54a5bea373d19b4db272be38e23ea88d0a5cbe7d8ca3456b8a2422f82bc9) (-0x5b7b969b27aa37fbc939e668459b912f2c620f63e9716ed622e41391ebb365bf8c025cd8678b557f56f54405b0f1) (-0x1bb7311587faaa0faef399fe510610919c7da1a204beb2029a750a3b654abe797a8c8a74bbb687b1d7dbc7c13ca407);
  Dbl 0x5f4678505986f408350505024c8554677e62a1a53f2497e5c2d59af51799739a92e38a641fe53e280d5671d7cf9b800 0x82a5da38b121aac960eec4543c519515650680b8a70a9165261729cdd3ddcd85316278fd81914f10a2f06ba19452687 (-0x15d12e459d617baf127e442c1e2b72787bd2f04db4efe0b50bcbbb07ea99bf36b9656048910833c1ad15315263849d9) 0x1523e22a2cc09c42fe2e406679483295c9daefabc30f7068d2172c36c6a4ca898804d6b660cd9ec8652fa662ef42304;
  Dbl 0x55af02ffeef91fbe12996261182d9de098a621a2ab91684f7a5dd3d757eb0b433b1c76f4d2f535a6ee440c460a6b80 (-0x902940fb5fb1a82af28dbcb1900caecee27561282c66e7ab45597e7df4e8a9eedc21cc02ff183306ae129775fa7ef89) (-0x11a53c0843eb5af318e3f7851d119d20e53229fba828d4bef82a25744d53c22a198c5e8bb28c3f312a7da3dbe8464) 0x2c2245a934f33f790c6ede6d4f5cbff54be10f84087b74f254ea2589b356cbf252d417fd0fbf3ca8ac40f44a659955;
  Dbl 0x3de7dfebf80017e512684ae0e45fa6bd4d144adddf093941f63aa7aaece8a40b7721fb284b754c99bde49e0f7e5297d (-0x367af39d437046d3cc80b57a358075966fdd03c60254f91c14f8c84a19481a6dad97ddab828e4c0c5a3c8e762cf79668) (-0x935f942cf06f18789c7c4571d71005ac4343a930b85964e93029b810cec133931cbe47d8026ca068446945f57e3270) (-0x2c17a41d39602f72706f9915c261fe6876ecf41c52e0d293a5922451e9f2b8669d405fe6abba869e5cb04e328b99ce9);
  Dbl 0x12f7397ac26dcc21889b3eb5d17e587f16af517cf50ac1782fd59e4c44ab5dfd7831f9413ef0b0aeacd6e618982e21cd (-0x787972b72ca4c7a1081d55452d2bc0e99bbcc21276c42f450e0d59238f468130fe69364cf13e2f2a0d8eb7d069e9f1) (-0xdd514036b82414c85cd7e4b82752a66bc542dc16ed3b6d2b581aeaf1e597144abe39a161855aa5cec96eb53ea90af9e) 0x118298821ca6805f1814616db4a85aed5265a121c2ce6487641f4d425687843576401e1f5f202b4c717c81a63e0ee39;
  Dbl 0x10b35ab58502303621ef6f57eafec5f133b0694871b866722109c110e6cb9338b81cba51c3e1b130780612a312b0741 (-0x1a774cba3b4192b807a2dc6b292760e10138f6303749b438671a133ff992d614d3859bad230e264a76f0422610aee7f) (-0xab9c02ef0ebfee2f67a98e5141d0e3a8700ef11b70ed252e0e0a137e67bd33e17ec708dd5f0331956bba05d8e6521) (-0xfb005e77e358010859a1fdd7b5315af7cf4ba7f26cc39fba34c18168fca7dad8f5875e4882b7901492465f6dec26d)].
(* the multiple by a cube root of one *)
Definition l10177 : Z := 4773.
Definition u10177 : Z := 0x1797971b5a38ba97d40f1de6b8a8305e6c9a9424f7c1a1bbf59e025a0c8f958412255640a2cc98506226a83918b420b3.
Definition v10177 : Z := 0x2642436ffa14d7006e8a3a705ae4a9fb6481f4c43b0120034ab49b07bc27e16c9a627f307b0945243917acf7e32d4ed.
Definition lchain10177 : list step := [
  Dbl 0x89276c0845e628194a47f63ea8c5d15d8366a0f93455f45ec5c54436ddc14cb5f42deb1ea3c9b460a93f66c9aed8487 0xba2a5b5e92e251d0652732b9e271c7514ada7262eefbea21f913fdaca911d1485df89d58392206d399f090d815b7188 (-0x2d3645f591db7c9bf829e80efadcaf75ba08d7128b8c7e75af42fa3fcc06e03fc335cbad5bf0015c541e14ee900088a) 0x6465756de5e793e5302c8efb251ce71365fc58307f15afa4a3390eedb1721cd6f30e534f570932ce1becb38d36e1efb;
  Dbl 0x19a75ced9fbb17a9f1e370081653eb0d9c336fde42c463c97626077babf30d693105c318cb6462c0e58234c80d02c631 (-0x2dfc6e216963fbd83c84410449b7c91917f0e118cdfd8ee09569f3e9cb7cc6fe86165a5b9867956c80d5ec9466380e89) (-0x194edd67a8222f850ea183306d25e19b7c5a9dfc277584f8c3392b6ec190a5df0f2d944728794956af457a345e612ca7) (-0x58399b4adcf2b654902839723e5fcde1653a7e8e3b37f00c2e5c44014088211e84a4f775d65b54e9912277fdf8da56a);
  Dbl 0x1340f0428762e4920ee4acdc379a2ad3e5907d35dddbe26d744e316500a8a26949b2c505f05ee87cc66babfdd6f4504f (-0x15661f11c0a77874108ae1b2e136a383bc0669e19a42b036dfb0049eafb15e21d7ae81f46ef74678b582dd29ecf74f66) (-0xe416b282d10c0c469ca550518e573a3ec1d4257b5bb4cac21cb5b1fc81b034b3efabbed61d4ea8317cf245f4cc83087) 0x24af13227923fd3990f55859df007bc54959c507e566214f2609b018264250cf51b347208b7d5f019552f11adbd0973;
  Add 0xc47ccd2a0129aea8d86d31555ea17861cc05627e58ab4dbdfd4d869f76e5b487ee5429d9b03b510048d3706f389c11c (-0x7cfe291d8d1039f684db4307de9bb01d85ee2d23e4fe347f24d45f121ccec8fb34b3508dd14a1bba316becaffdc6774) (-0x5cca8b597e809605d6a53d00bffeed6c35eeda1cef1871397e49284b3356a4b3564b7889919875328ff24f410e20636) (-0x8344c872f018ec13f8245c5095676f6911e2d4ed41106b91db53c9f00da2308d76eca0bd2c93a8aa8557a0847fe2c20);
  Dbl 0x1775afb5533ff3193d723e6df9e2c1ef28709ecd336d3ce5a9090044f42635e64460afb6b3712ddc72288e87835235d2 0x9f8bebda85d90f73ede152d4e06afdf207da478a28cf3148d24823e51a4477571712fd24b4d70a95762cd1f8dc35ddc (-0x152a0a2220a182254c64da5b682aaf35bcb0817a30c03819061e545662c320d23acb56740d7c8d66699f6fd64e062214) 0xb08de8a51d132462e927725955324a203151c7bce9cf7220cde534673fe4a4aa3668bba906f5acec84821449e5cd187;
  Dbl 0x85322e6cc55b74bd7f8ac0ae6972311b09aeb4fd17a5d0589bb0afd0567884bc9c8c1751918bd71b6a95689067efaeb (-0xa6d782244a49b886a35382af6204a971ed5dfa8b23f779915488d7b4dfc2f8049323f950a964a15f21e3630adecafce) (-0x2aa3e4fa2b9aab37463edc8220e270ab794c6b1b0f894b3219f05f8eff52e7015a8481e1da7a8143a09e4dd17b9c399) 0x1e651c64f37d28de7287cce13d10098a9c989f3b0e4b0798dd054afed06dd6950f130c537dd3535fbbd0a612a3fd5a4;
  Add 0x18807ccfb3ca995d73f8be8de72ac589f2b835e6494d3edaf259cbbea49c9cbae1044c8e26084ff5ff0f72769bd86f5 (-0x105561f887b59f5c47bb9c3db5777051936a88d24815bcb0bbcf0208dcde751bc46aa111b5c961c1b52f275283f204b) (-0x17161f6534f1dbb31ddc509a497fa89de9c16f440e70b278f443428f939226bd4ee062b6b3e0b8ff4a3b4fafa0b88d) (-0xb425b3639deef4dbfe0037ca73da94eabc43bf190ee10695e26a28a9afc27b4f165bbbb18fcf30c47398b5b2430160);
  Dbl 0x1894df9632a41d04e3e7f759a48b731a4e6a5df95ad9605ddc014c1541114046a0e3eb87db5aa1fc7d50ddf3a198a333 0xc7ac1985618a51e564eefca1a5d08f9ea6a280d2bd44583d0d06e7c8a23f70ca433af7a08d50d9f7e478d54029b71a2 (-0x173c99f1d5414cdde837da064097b09d51ce703a4a47f79907effdc35f50fd66f340b80d56df5ac107eb10ce01659165) 0x1d8646f1431a265d98fe80a7df76c2a0ff98aa24ad5a140d23caf699b7907449561764387e3a39447f0c1b870a95861;
  Dbl 0xf56d4b5f85b46dabde7e617010706ecd833853d666c760acee6e8071965b9003894f1175972a71562f7e30c8c7fa9b8 0x66014aa9c5cd0b0943f12ea5d1666e5dda263852705bc4cc829dbe9d67665a4c6b8b7dc2e43eacaadff13a7828050dc (-0x90c55a27106bac3ac5adb5c3c475c03161591f012abd1830fa00b34a05c182e167dc4ed1bb443cd368f7114fd8f1ac0) 0x60cd35dd2e214cedcac5597d0369131f2cbc0639caf79638c1e6755f1018db2534c53dec064646fa912d53b814e2da8;
  Add 0xe1d9dabd0be5d159ddf6070c700afb89a3d4668382faa6db5d5da59d0778a7380d0ac140a12e74a04cbefdc00e28f58 (-0x98cee07f790c4afb542067096a70cbd6060a2cadd7caafd14d5888eb5f54e0a7fffbd5d2b6b394b05b6869e8c172290) (-0x7a98e80a9515ffc6f6d315ee3a0e81342624fc3fea554e00f3999ad29905092f8193240fb549505a11639cf9c331ec6) (-0x2c95ebff9515aeb0319554302865ea49b053e270113a96b7b6225f2ebec402f628c4e23c8bd674ad313c0f3029e663e);
  Dbl 0x6c21be0a6a2453bd6b4c87f96e7fc3ca719199d6b5f1cc14ad2ee763d17cbec63993db03b0b04eecceed44ef4e1480b (-0x11fa69586deef038468fa1d61526f9c4781dbf16851727587e1a9a9b4656843b803c50da81cc58f8412333794b041590) (-0x1c1a386ca638da4266ca47d6ae1ed76346c42ad8cc5829cdf237739fa7e62ecde6847d8fcaffcb27a118113d84fd0d9) 0x90d8cecce51a24afc687b41a657c5934e9e388d360deeaa3c0c31b32395e711ffb30bdd355937f1edfb639b4fc50fa;
  Dbl 0x2e4b4463cba9b61ce41110a63878d166b1d2e4d403e1db8f1086f598fd4aa2c44147f2efd8ef5a1fa98239cbe52ccd (-0x270a4d16a876a40c1831a7416a940b2dea65124da5ffccd2a7dfd49d02f6119bcd707e3ba9931b02a6fc4f2fd70d74b4) (-0x526a403dfdfe50d10191b576d601b6d0f7bfeb96bdfcfc7d36e0e188c82d18991907d52b782f259cc10fe7b693c6) (-0x2894e7f4c942e14db1a919b34371229ad18d65fc150b3cfbd043e525985a54bfc4138c7041c59ea648746a41b03d7);
  Dbl 0x2e87749ed6396d0d76ffd6e02cbab1de2d3ad246dee18578b72a868cdadb0bbf3e15d6795ca9f60ea5587250943db6a (-0x1f2b306cb2b3954531c7a33440b6c9253bc97f6ac8dd8680ad595e4c01c26f3d4396a8ce4bcc9b9524662428e4023a09) (-0x534118a463ffe033dccdf27a49c5372c2d771ef3ffbc96e9ccba2e12006dfe14ecb910299248c6ca79925dd542d892) (-0xa8307191d06c8ab8c4c345bb00259cf404c5edef513dc24d2fd21ee1ac3ef11930321750daa7cfb2b8d0a81c360b86);
  Add 0xa504f5bc49c4cf527ce1119d729b5f6f06e135d737a316492ff396400ac02c5f7069aee31bd5fc08065be47c02270ce (-0x2e91201a61b2882baf390348c472a95c5a51b14c297484e2dd2535c4f1bafef97396432659fe8aebf499bffa095587a) (-0x41731664a0416dd631fd3125df436ca4a05e29bb89b17849cf52dac8a06078c8eeed6b619438fb28634847402f6f42c) 0x596d7c1d15bf8f05af0aed1730d09bfd66051d5c46e1d90b6d1464ae0c8cb58bd4230b4f44a7d0bb7d519ec329ebd7f;
  Dbl 0x19af39906dca2855033981660ebe2490b97fb4a2b2c04df22508ec7c293d3fc5ace2ac5b19b0f3ee2bffdd7fba3674f0 (-0x3f6a389831ce2c05366d64050f0e940c7129e73da8e14c4c1629040b6161f06ef340db7f15dc55fcb45901d0a5b62f30) (-0x195e62cfb62e56da426fcff9c01a5b3a3cc28c3ebd5cf12ad558f04689331a554bdc6fb6d5d3817f3a6af43489f975a6) (-0x93bf1f1ac5cdd12d480895e200d881dbae732e368dda44bcd680008bc49926ce4ce2d8dc75d855093e39674f8a1bc17);
  Dbl 0x4c69f9da4b5ae3dbfa237811c9d83bd17bb635290c1b0ed41c3eb678bfa2f31b3c4bdb9bd5d93e93b2bfa113473aed3 (-0x1803058427da0a633dcafa97954b9e399ea4b6703680baaa012c0a185744f9de750eb90b239e7b0a3026f6263d97d2ac) (-0xe08b6218022428556b4da8285edab8926b5641ca019225a199b7698d003294afe12ef8106b5d5dea89c43f47ffce18) (-0x174a17d87db86f3c5988f7ba7344bec184d6dd5acba37d906b4665b14e6aa0389b497f707365ccdd4607d2ba4d703e5);
  Add 0x197145ba2618da9ff8e6f56f3659ab9bd0744712d37b75d9a948918bd3e1f258bf9a89cea5160781672fb3f2ac6ab281 (-0x410e2c9d2ca128115d817c2686577cc723556d117aebbf477f72b50192e4f69b338c6b17eb5583478023793c59f9d6f) (-0x18e494b5add246a09aa6c0b6edf5aad0b9e05f50da4bcf0c4af2c5e3927c6d5da0a553aa02cd30e359d7489a761385e7) 0xf55f8d541274370ede1b1ea80831ff51ae208f0694affd016bc3516c1fa6aa61c58451465f25433cfe319f09ae7cc81].
Definition x859267 : Z := 0x152777c12cf20c93d971c4ac690fd6c57b110ed0b4476541ca9a116a3a328a4728b2dfe0b5c2e2564284c39ce424ab05.
Definition y859267 : Z := 0x15722f4177269338fe9a3741ece6074ab690df69c95f5918a7aa15d2689292282348e1048650eee7dfa4c781227021a0.
Definition chain859267 : list step := [
  Dbl 0x1256df8a005c68aa48b9e3eed4b4efd8e0a8d8992f738f6a11a865ecb7b78eb5d8f56583cd0b8b7dde55119835e0fdeb (-0x1560714ca4db7b484967fc5e8154135bc63c8519fa05cfa918e669efa9de32b10b3d5264709515ac80aaa1655f8a2ba1) (-0xcef0a99b3c1a7cca9fe31c1f520894d5d909c92756262dad44da1f213486de8224a5fc41ff82027badacf17fdf6ad87) 0x16062c49b4b9d8f603efac07baba405d54d9424946133eff067cf9ec83dd090f50aac7fd04f02d62c6c64f548be6ce3;
  Add 0x9b2d4fdc4b71688cf0f15184d3150fd6db973675c47b493d06e53ec161fc517a8f04735ef52729df2e85ee8bd706773 (-0xba5af8ab14afec3fd48b15055525af86ac19f578de47402c1f470a1b1caf62487b3eb192fc3a66a6837b75868ddb8f) (-0x39e004e03b3c0e13dc1c511e8a459c9a6bb1835df5c364ae000a1461b08e4468cbe27aa04a47ab5aa1e9d01980cea05) (-0x59582436cb7b53c466c859fb7dddeebacf0d8ef461df2ee63477359443a84b154791692f9c6cc960e28d082738cdefe);
  Dbl 0x103e3b95b6268cdaac704f8e514408f5a7735613dae0135cab1be87549592673dae6220fcef2d6648f341918ef569d67 0x372107fb43e670899644fda220c0436ea538c8a1a3f995131b94d3b79f68eab57d7916c8ecd1be2cb14f8b44b713b79 (-0xa255fb61034d99d63b5301609d3b5167f7ab215168d406a2ea14aed7288fa8e9c1e4c640967554222bf720339cbc58b) (-0x2557ce4d8e557ecdb1554310605726e6cda85563ea8ebeca5a2b621cb948e666da7db5feaddadc60ed49f42b0091694);
  Dbl 0x10aee3a2685d53f635a3ab4f87286c1fa5c1807965ff05228ef6a8f759117bb4976a35cb0ad1686e209ff6f40530b373 0x1c506284c94c5195bf77a76525c9ddc5b0b2499d3fad76c9289ab6820414e4f47eac0e68b8e384c318602929347cab30 (-0xab404b8c75062c5dcdccee1794e4e6fa0b13d56d557c68a9a6a66065bf13800e2db5a75bc704a53e8239995edaf0fb5) 0x8456b55c17b0b2b2bb3bf4868acd6a7c2ff77bc09b866154b7ae8a6dc8dbc5c5e86c2118a787af60ea8a7a6c775eae8;
  Add 0x122baa904b6b40f13aaf557f9150eaa5c41df97b7f6a9a0f6cb3120d1c679815aa0fb13fa887220dfb5fff2094478529 0x2b346a3db7699a7725f5d9427d22312a3465031c490d42e9cd134e2a4fa0b818bf3f08b451a553fb6d3f4c769b9349b (-0xcb260f80de3fbf69dd91dec996e3bfedbbd84de9020bf819a7f2f9afbc352165ee7795b5e36121ba9585f2ef04e0342) (-0x802a336bbd1d05f089048e3954974947bf245dbb546a04a01460c279b36c0c8433836f45c202bcc616a2d8dbf7d3993);
  Dbl 0x112b8fb57dfa80b6121f5952d71cb31e24510d9bb05c205421f1727d90e70e1558f9d744c9a17f6ddd9a60a33bb8937e 0xe6f650f29f1b7420175f732ff7b90e7677feaadbcad0cfed4de87d6882a302b6905691e8b340797c8a9936aec768cfc (-0xb5652651e1bcc385135e2b8d5a3c834ad1b479c8ae240ed01409a39affd239de53baae7d01740a3d229b56788b84541) 0xa0f9e8d4cde9336d1fc98a1615ea0cc4121e499ab101edf54d99e106ccdf52dcb1b88b752c80841281ebcb31da1e296;
  Dbl 0x119ceaec10dada78889423bbd9dcb3ce256f2d65e1043d0de6a7d042b557e2cfcc32d04f0e6b06d54cd07fc96954898d (-0x3153c68e827d4fd1514eb18aa98da2b7a56326b38e665433a69980982efa9948a90c71fcf331bd5a416008db84105f7b) (-0xbedf26ac3415f29d805e0763937c63472a59322b89f4ac3433e0c17a255934e7958392ac29a4b955954b66d2d06f528) (-0x7ad31d13f635431ecd870110d624372a7fdd72ed1b6470391be099babe2fd086f71a2fa4140b445c75ea2657a24a4d1);
  Dbl 0xb65cfd22b5d11ae52b29270faeedff83aa1269c43e04c2dc7ac14631fc427ff3ef8ce5848b9065a59778fcab22c19e4 (-0x1baf1d3c6ce7e87cc5ce6b4bb185d0bc11850f6071278fa3b92982687c34370c11c9856c26bec6af14c9a42ae0135f9) (-0x4fee2832d721c56a02ae0deffeba5ed032264f8253d5507bcfc3127f2b551c589f9b7ce12065ec11fd4e971cca6110f) 0x12c283f9c56620886d9c9bea72e9737655cc598a6128d4c3e24e2c336b1c655dcd6dc95e3c81781a368b479d0424a1a;
  Dbl 0x170ccd99d582d063a65f3e2b90b4927bafb839933b635cded33368519342c828319ea63baea16ca8be292265830de8af 0xeb55cba98f3d7668145f8bc9eb2b275d71e63553321f618619931db159b8d7bf0384e7f089fefe74e0b9360b56fe9ff (-0x146e736d2036ed4c1ab1738424b6df4ed38f16fc312a63a917c0e841952d4efdfd856ce36348e9cb5670685cda795cca) 0x55ea767a1d52657ffdf0a9498ecf41f3434a72af41980ef71b9af19dd910f8e316ebcca3987665f287e4272274cbd85;
  Add 0x74962f1a5ad633cf50d09766ececb91d77974c6f73a2d4ede35dc0be10b66a55b6a3e6cb00bf6fe4b3b18755d896dcb 0xc112f55bb1b509333a0e4d19f509655178d9c2850ef02b7e99bc196f914a6c84eb72edd3c2e7899bc74f65721d3d6d (-0x20ab3d3cfd0eac5a2edc5f5c5c56fc26ef26b009fa483dd805f1accc57e63cc5968fc965a85108552d24dbb0bd661e7) 0xdaf7b28520ef4d8abef8bd796849b1fc3e5131f19f832ac6aab4eeea1c305cde2f222e2e79654eec684071b989892a;
  Dbl 0x23c2a2c4e1ad5383adfea5f685767497dc1d9ab8441c167e343662189d4b235bdcb551eeff8168a141e1f95091038ee (-0x3512b3a0a058afd987c10dbc554d176b8c15d21b89957acda068d572b2a074e64f9cb1975345abb3672b605b29690734) (-0x312d39cbf20270ed8916cb1820382264abd5e371924e88d4da27b379d119988b802750b91736e087d459cf5d5ffc9e) 0x30245bf46035d895e9b2866c563380e5bcf04995e371e6faec99df95c80f044e1b57b76505222cdb0fe530cba009d0;
  Add 0x306eb474abedf538c07e3a600d30b7b61f0e01328540ab655aa5febbf839c2579447c3fa9d4b16ee3e051c38baee816 (-0x4bf55fc3b7b27184e17758b7bb151f202687807f6282b95ef6c36e8b7aed5b78a3d46d668d5aa3e553d8f776ffcb16) (-0x5a346c929d57eddc05a4c0b723bb5894d8999120bbd88e3535e3fba4f278a19081c230e8d2c5a51b85c3bdecaba958) (-0x58862a34d691699f75833717dbd3a8240479a0a4070589b740ec2e8aeaec67b1dad0448c8629b9f84c6caf20f55425);
  Dbl 0x18d8b45d99aa72e76053f8a562bc0df7da8e3c708de1ff05e2dcc7eba3de5486a4bf99f875782dcb4a708c790cc09d1f (-0xff1e0fdca8e8986da1558ccbcc62684d7993cbc5132a78e7c6d47707f309e9cf662091833d802b88992f7ccb24a72cb) (-0x17bd8871f3c240efec3523c86f550000458e9cfc28f01c3309cf0c9cdac526de9ea77c9b5ebcd86d01423d04b855524b) (-0x1261b386ca77782223649581b12227c554bb09fae11bcb5492f48148a0b54021aad9be5d3afa164eea6f221eaabc964a);
  Add 0x141e07372141231424bb5ec29ea1167b4513227c1c8cf7aff853e4d8e41fd5b292d5342e4a8c198fd1e7b8ae703e734a 0xf358ae3ac172317a268b103f7abe7da5e85e470f36eadc102a033a31777fb60573527a99a5303339996dd1454932306 (-0xf90275bf7011a529711920605b84669f2871f506785df76f22af174e6a2d25bf67d52ae33b598539a6596ac51b33204) (-0xd7f95fae2ed0baa5e516786e40d0895735cd3f03e280f8867a8af18abbd9bef2ab88149884b272e77139fe2400a06d);
  Dbl 0x12816c1ff905db42c10fcdfc597d23cd9d581cf5eab0884d109228bd5b562113e2b2f49fa43f335c37fda7a5cf966e5d 0x165e2f7eda5c00f02de9405336ecf0beea77a4e08268042663f885529edde97f543bf54bb7616534bc446695cd42bbc1 (-0xd2b54215ecf778ff3cd8dd09dac422071e6cec865a58be35bc2deee6f6b97fe518eecb587449175975ae38432fde660) 0x24fee564df444f0f41e7da84834fa63e30848f937367c76d77fc379917ecf05d48f4d6c65c50825c5294e1d514bd481;
  Dbl 0xe77504299b75fdce54f7b492baa98a75f820ae0d5d211a98e063fbae9be8ae668c75130e4b0a98ee9d7b9592e6dc909 0x139543175ffd9a9aaaa5b18996f90d1c9958c04f5f4fc62539458f3e7a9941d5c716c3a90b6ee3d2f84f62b57e1e0383 (-0x80c252e20d63772001992d0e20cf91cec7f464314db2be22de3ac381e95bd72b086eb95a85734348e7e938b5c0795c1) 0x40c5de05dfa518a68646eeedb37b02b860b8f4a9156e96f161f53b1d3e96fbe4fe63bc320db77db474228caa79eaf2b;
  Dbl 0xc1be2f049a601eaea8c939c4711cd511aef252665dbbbb69a296f41c3c535d1ec214b6f7d69eba812e0dd06e4e5f95d 0x2111d5b21f6e7d9f2a47bdd7347fee52ce462a598a306d5a838ceed6a1beafee0563dfaef019180923a5f4ee95b23f4 (-0x5a378e9501a89baf68d3ffb091b51ce39468ff4a7cc5ab04311fbf20e7bc60c2361c1493e90a106261139141c96d82b) (-0x21e7f9d5f763cbd1c2c9bb7f942f98b377ac12bd3f013cd0384ffa79effc4a260577a85163b62243fc383cdf6eb5c31);
  Add 0x6e842e4782bca3599d5c1bd45599bfcd1b2ac0ca87e03287b62139624de36afccc82a306e22a5ca2caa2e65ea524ba 0x3ecac17bc39eb61d013df3b11a26a0d4ff9115fc4b7a8a87bc9fa57ab745079bfa9d2b15063868f562050638e544ab (-0x1d5b035ca7b735f13a5c4640b477cb05525171df040ccb8a23985e0aac05ff427743328f1c8ecf43939d753ffb97e) 0x2fec6fa7b18aa716ec11c0588d266f3bce81623938b308a341b48860c778fd2a9b405b960bd5b51fea0be154235952;
  Dbl 0xbc3f6c636a1f6536484f36c38737bdf9aa74ecc03e5b496ce3facbd52b66b36d3c9c6a29744ce8a87b7e813512682be (-0xe6aa71f088fa0940f20a9210ba09dbfaeae0972c4c317f06b75d871b0f19f08bf345418494956e76ea0cf83e806345d) (-0x552c02f2edeb7676effe04aaae83098bdea044dbb62d20f9eb513a4b95c79b2cb727e4bf3c6e151d40b510af0765ad5) (-0x5181b2a02d897954007f3a32f940efa961149e51745ebe7aa64d0b755e71c6e78e7b4fcbafb546dd12f62fb72c283c1);
  Dbl 0x122e4f546a2b82c274f991c6a0490ecdcf133dd8eaa4b6f298c1a9eb4f3dac4cc3a967472ee7a730b534babefe46dab4 0x1f00d1410d522eba716811ac821eb60a19c1c0b57e2b01c197becf51500b40c0b67fca4a78af1fb84e217655155fd9af (-0xcb61306b3f6aaaa83fe0884c55bf31ccbca6ca950f2e692fd35ddc16d726831e9052d189ac6a8953c8fddd7ff5dc61a) 0x576de9756677520d3892a9896e8f4e8861ca2b8d36b9d0497c1b9b4995aaf7655e056b0c4f2459517f3fe77f8a29e1e;
  Dbl 0x21922021762b38562160774e107fb53dfbbe4c9332174c28592dca7fef751c163e57d8ae4b0f9b4fc4d38b3bb93b223 (-0x13dbba2cf3660cf0f900272ce8622b2e56bbf9ccd3f23175b30636e7299ec9faa28adb9ee89fbe98a978e3eba7c5580c) (-0x2b56d1ecd5b9e73e70e57e816cdf97b8be5951ccbb909469887710421da17b7381c2e2d4d0da8063f8465075309880) (-0x11fa12a83c10dd2faa568d981bfb9cfc192dc5907f2b0d2cae00baccbfb2013dba19e35d224ccfba16ec3ceed86dd02);
  Dbl 0x9c1a722ce3a23cbce3fb169f7d573e7fdcd71825cf55734ddc8fd7a424117172810d93c60765e68767e15d3cff5c436 0xe630ee569a8eb2e00713701d63a1028c939bb909069885bba5d050012312920b8d8ef247370009f345eb5a2990b6a7b (-0x3a916e496b427c841a3ab97b984df4f10ed167d29d95a6688e8ea1f899c2d8dfc082c3cc3d108099da533b757b19bd0) 0x45ad57659b81afe59377cd1c3587c1d6963cc15d6c216730a1ffb27c0d7b454ed78083e50ec95579bab2b2e72a0e575;
  Dbl 0x91791095705219db2bbe8705f06c8135d9f8d3cd7a1c55dd678cdadc316719a0977766fe88cac3cbe791014db236dd2 0x7c4dc766dbe49c81a3943bf982e5d61ab7fbbf83653fa5fe09c1c57febb8eebac700694e557dda2540bbe8081328fc (-0x32dce6f161019727715d1c6c2093ded55f37d2e1d28e0b08e00371050b43bbf64c26ed6266be7997308eb00fd2d20cc) (-0x118cb3eeeca1151f124078eda28c64a0036664793165c73490830bd767874f85db31943e976e7c16617b8b4b8996b7f);
  Dbl 0x1376dfd549d0a0ebcb9373b8211c90761fc0ec6e03da8166fce9f40fd5f7776154572e041975d742f18dba71f6fa8164 0xbf913ac289b97f3e7c24b62c5c47280de60c693ab35e4f52c33e5cd904bd383caa4a3f5834c2d42c8d90d72d4cb2e98 (-0xe91b9768a378094b5354d9cbc52278b694b7cb18127b33b0c054e2876d79fb5e977b402c8c10c63b35f5f1a939ecacb) (-0x4d1a163c699617b4e1bae07a41b06307f02adb775fb963aef8bfa8bb4ba433d2441a9482b3a8ea82b30b6e54e8df685);
  Add 0x173582a45576f533501437bd9efb62e4901d15d21ad185b43046e192ecc6e1a46ddb9ccc843929d9676a44d95baa871b 0x10cf7c2c95e03a581d0a819b304aa3327aa8fc1fc653dc73d63671cd4838905cf64e801276de341c1a9feacdd4da5fb0 (-0x14b6dd7f3bafebec910209a00efecd651241c9397c4e4db7889a07dbbda52cdf38687180e7235979bb7f4a9192f3a03d) 0xada72c9c892e196dd4e165f1d377da28eb8d19a65074a895184bd45b1ec7466b6a9d992d882b22c4173e35b5abdefec;
  Dbl 0x72459ee479eacbb52c28c8b2cf4b3b9a8468ec2a053482cb2ea477e336f274d2d6bc5f6395918999c01fcdca1b39e60 (-0x17c5cd9837082759f806315c27cde433335d4f9c05b70df0925f58fde1655fc79293dd1108b0e803681eed9354ff97c4) (-0x1f62732bddee44f7e9d18646ea947ca675f4cd3c4196231b4907dcfbee123abbc0ac879565c4cf12b4058be82656eed) 0x1d54abaed915950440923120ff0f21a3fe6af28fc8f6a64dd9e0f3a6b4ce9d89030a2320bd59dc9e61a513d2eabdebc].
(* the multiple by a cube root of one *)
Definition l859267 : Z := 119571.
Definition u859267 : Z := 0x132e78b5d81f3ab250f7ac409360f4ebbf59c2ecb15de8421f9f84ed71a9db1a9ca674e92c434a90813e25afe1ccb919.
Definition v859267 : Z := 0xb2e7c62389c312bc443b7faa9d18148acc57338faaf473053cf41ba0e1d4e6a722264ced8655a842eb17664faf35dd4.
Definition lchain859267 : list step := [
  Dbl 0x1256df8a005c68aa48b9e3eed4b4efd8e0a8d8992f738f6a11a865ecb7b78eb5d8f56583cd0b8b7dde55119835e0fdeb (-0x1560714ca4db7b484967fc5e8154135bc63c8519fa05cfa918e669efa9de32b10b3d5264709515ac80aaa1655f8a2ba1) (-0xcef0a99b3c1a7cca9fe31c1f520894d5d909c92756262dad44da1f213486de8224a5fc41ff82027badacf17fdf6ad87) 0x16062c49b4b9d8f603efac07baba405d54d9424946133eff067cf9ec83dd090f50aac7fd04f02d62c6c64f548be6ce3;
  Add 0x9b2d4fdc4b71688cf0f15184d3150fd6db973675c47b493d06e53ec161fc517a8f04735ef52729df2e85ee8bd706773 (-0xba5af8ab14afec3fd48b15055525af86ac19f578de47402c1f470a1b1caf62487b3eb192fc3a66a6837b75868ddb8f) (-0x39e004e03b3c0e13dc1c511e8a459c9a6bb1835df5c364ae000a1461b08e4468cbe27aa04a47ab5aa1e9d01980cea05) (-0x59582436cb7b53c466c859fb7dddeebacf0d8ef461df2ee63477359443a84b154791692f9c6cc960e28d082738cdefe);
  Dbl 0x103e3b95b6268cdaac704f8e514408f5a7735613dae0135cab1be87549592673dae6220fcef2d6648f341918ef569d67 0x372107fb43e670899644fda220c0436ea538c8a1a3f995131b94d3b79f68eab57d7916c8ecd1be2cb14f8b44b713b79 (-0xa255fb61034d99d63b5301609d3b5167f7ab215168d406a2ea14aed7288fa8e9c1e4c640967554222bf720339cbc58b) (-0x2557ce4d8e557ecdb1554310605726e6cda85563ea8ebeca5a2b621cb948e666da7db5feaddadc60ed49f42b0091694);
  Add 0xfd343fcc82f54afd64945faced5cf6eff5da2184c7c93721c439cb2b5922c24456a8bf780c9a6241501b04e70f015ab 0xa3295f97ac7feb0a55f080ef4d51a68abfb89dc8f6a3df8a4cd74c3e71139133d7c12b0b1af9bb6c6de509932f31651 (-0x9a17642aacd8b450311c04635dbc3eb613888cd7fa141e03a389e8fd931d0786df226a46e2b56b7f1b66023681d6174) 0x9e39dc6f94d0e578010938c26303deb0f85ada81537d2fbdba27a7bec35c537b4c881afc1c34c8bd416758aa8a1bb7b;
  Dbl 0x300d21c9cee026951715d831f6c1f639c12cc97bf29f92b958eaa828fed2c2887e07a495a7265293fed3609e02869be (-0x2bf5f97962389d0883e513741dae54187d3965d808b01bcebf1fa399eb7f9f7848c6fd1007bde83e69825f12ef732b68) (-0x58ca65cf4515a2265fdd7105e017f8e7c8b624e7213d14a6e1eebc4d83f9b4a8985a8026a7f6c6436aeb486f65f1d3) (-0x1ca3c87f709180ee35baaf31ff0170a562b9ce7645f20ddeef795f6a79ab7fcc6f6228187540619bcd854648a1bb6d6);
  Dbl 0x1957ceb8d8a247664df93ff696bfa831aeda307e8b9bd1fed3cde24f18f23f974052536288fa4ee32dce75c02a7aaf93 0x29ae0562ddf8f9b13078b39ac062253f24e31f98580df7a7dd61e2f494b98242f3ceb3d1a2b172aaa3359d8cf2819531 (-0x18b2d94450521ca9eab68b17b3c342d63f901dc4b3d866decebde4b923d01bf30fff54a1badc607b285bd241b1cf3b21) 0xab19f036d8cd3b8c3dc877584d9f15b898fd06dd7cdb9a5f39356d06a0658a5b1143e49c51c07f9873be59aa873b224;
  Add 0x13e223b5a6fd642e5790602ee50bc268eb76916a9b0c8a2606c322bf5fb01401a8c3698bc041d01413547950872e6ea0 0x3d9370e43a68d402d16c8ef2b4e186f086f07c88b851188496d87a0b63c7cbe1a6e8e55532599b70a94222e44add0cc (-0xf3407d50b8aca1bc4f5f4a6bd857a10d2125d23b2f29318e0d3cf52f8622ed6f0f02b1cb4c1b39fa56ffa8ca4d83f9a) (-0xa6ca1ae17959709495529382bf6c8cea4c498ba98bb2a211ce25c75eea687ceb74359b690d12bfd93352ab3033863d7);
  Dbl 0x162f942a4070c13aadd9f1c9129b8132daddeb9fdbbe95771bb716eee34700cc39a4535e1a366f4e4655b98f2df811e7 0xbd5f161ce57d0640aaad540f91fa8edb28ca5330501284e82a98a1c1f392600d5fe9119b13406269bcfaa1bc2ee31a5 (-0x12ed9e16830a5522583ed3b0d73ed15540d123d6b49d17429d53abe46ee3672a117de5d16696f1637a3dd2a74ec1ce1d) 0xe12a38a5e10417f07e8f41da32acff02d12365ba364295c7407a947e73d8fc057ff07ef4e725903ab022a87ada4a377;
  Dbl 0x5d175163daab9622d00b27632cf99c0fc3b864a8db0e29f10c8878b68b42dfd333ed050d94b09fb5dd348a40abd87d0 (-0x1fb4fd139692751f7a5a77d3452bb2a943c1aea7f901493aea7ebda0f40e9ade04df08100bf0c12649e8f6aeedbaf160) (-0x14d409098cb20acc0c799b3c8aa7e6405727737cf6809d613a59921af7a8438c070e5afba9c5f6ee29c0fc9f331f322) (-0x43b3715d130dc0ef0d446752f3967896acdd1830af17252f7fb7873e77b538a5012180350d62ba205c62991dc1cf024);
  Dbl 0xbde5be120a3a3dac9f9f830b58970e9ad476f19198c94c878f906574b622947eb8dc802506e02c492ec51e1fd54463a 0x110cacb093ea64c35fbaebac1ce81541a60a31ea6344cc2276ce1c98dc10df080e613c42280109bf976a5fe88330c9d0 (-0x56abd6cbf7f182554ec24cbe06e51dd0ca60e192709a6b1bab685caef6e0bfe3f66924eb63925d41f5bdf905db6aa5b) 0x75e9193d731e4caeb4ec20e3f828a61827644aabc5bd3d57464a8b4f00bff14c98d9afdd69519ae36f4bd4da7fd3f27;
  Add 0xf7042a28ed8fed47f71f4e60e62dee3549f6bc9d6fb7f5c9efb2cba6fec2245aa4dc6ddc91ac5021ef3f429cf0e44f 0x2ee580ec536956742733107282d27dd835b8afd37e8e3eedaf0700a33d281d03fb1b895cbad0420086b5c23cd44ace (-0x92a6e919947b2a1555bd597cc9aa4b7f02c87e9ec4393b277771485cd9651c39579b0733c53f2189477787486217b) (-0x7530248d88d1af75afd9a1b08a816120be8d62c47273f22efd4913f10d2a95889f367e14b18bb211c5807844da43e7);
  Dbl 0x18007fbd334b0d29e03b922e23d9c2e0a66a6dd7f5a4effbb87a650eb04a4eaa69f33201112e9a148e3aae47f91a412a 0x13a6014a4bf4adb747bede060885a2f6fc9b6ed6c3b9d2f32c015350cd260887f5a23ea9bbed6309cc227dc6f9742bb0 (-0x162764e6d659a3dc491ecee2760f961b4315bedab7ecb9e96bb70a50e827fff3ae534bc18e2d76a55b2fcd51cc18541f) 0x24b688a62781dacedf695059e9a304771dc9a0c71c5579b0548690c4f082898680eb178a4b0f585afe061b8bad1b1a7;
  Add 0xac972e2b071c11646a59de6e2fb7bbf5af0554a57780e1139b3301abfbfc14dab0efea422c3255084937b45996e094a 0x622585b253f013d57e703d2286fdeb697e57100e014d22796367c81130f298eda5159c86541db9b89dd16b4800d6751 (-0x4797d241babeb7cc281718159f15dc5bfb393b810024c269586eaa5d16fa2caa9334ec05f56c0807e90108d50363c43) 0x7e05ac26267cbe58640a780fcb6e45615b1898072a099b1c16186beb62c6e53e07299f3cf2bcff25525ac036f0862bd;
  Dbl 0x33df70d5941595d305cbd1b11cfacd275a7b39ddfcfa4ce5a2fea93a2b27c7801bc32e9097be15a9a9aa7f939e37e50 (-0x44b6b831e5b39cf7fe0cdd96bc5555e03da2a8f08ffa979eae361f747314c34a41da3298f0f5e092cf94754a8cde76b9) (-0x6779a9fa9ea4e645bf2e6760aafb48c252a46b8d7804d1416d706bd5b694c91eaaf2e4a2854c408afd71f7343e82f8) (-0x2e870e879cf1f80112d559d7912ee9b211368613694ecf5e7baf84e02e913b540c0031a20542a5f93d19f0288176419);
  Dbl 0x18429dbdad006bab0eafcff5de27076b35a320507d607cd51fe45a6ff5307104ae890d7ef969bc79d19cd69e665a441c 0x12c54aeab4a312164fcf0382b9a728d5ab1e2e35d3716b7ea2e1125676dd2b2720106a43076deef030cf98739daf4f04 (-0x16a21a86eb3a9ffff691ff6e9232b8b8e8283e7e1afe6fcf2aef5f361815df7ff7112c5dd966b2d0ce910a49a0a17c9f) 0x13590a71095f742a246a41eb10bc4557b020e59c3149f461785b758579977ea4f559308b91d4f2cff64b2f6a0bce4be4;
  Dbl 0x13d94010eb3545860e788a6b938ba5dcb668e405f110fac965a17da5c5bf85799035823dc83c6f0139eb7cd07f09726 (-0x39f43f1b38db5b36e2ffcb4ad8278f257ec125a3869d6bc608702f17f69c2be4e95a173917c2da52db7bc587cc7015cd) (-0xf2672dbcacafef83675d9fd62c750f7bbbc235413e7efb44d1a7804a7f0e218f3b8ca122eb6cffe4eb4bb68f17c29) (-0x69a205af2fa09d710e768f1be6e96285f46295a737b93f15d58ec389a82c909747097fea5558186879913200f8f029);
  Dbl 0x7b1faacefce8884e9b1ecf71c40279bb55a2ff696dd84c4fee42258a9a2c27607ba40ea5770c8abd480bd51d5807dd6 (-0x1534e892643c275dce517e8509df92f799cdd55585c6fbb447146185abfd0029360610a9e9894653a9f3a18fb7aac4e9) (-0x246f63dfd8001c74bba7bd8afffa999ef9e6f3696a3b300302999c8d7b537a51abfb90877dbc8cdfd35c06bf1abfa65) 0x20fb1834e3aa5ef426578f4ee8dae44e8ea03185eda63e3009fc5cb9f9cf2a10599c855360a7df0a3bcf422940261cf;
  Add 0x60ad46b06611622ebc3105062c5e7a59bf789cc4c77f4487744fd583d8a405dfe507caaa360ba098636603bee3f3002 0x42644c5e525eb9ce3bafbc9b55362a6e20025e70fedaf8df65c19f1a98756d34463895230cc7054ec891fcb035215 (-0x1676b737ae64cfde5b4f53fc9bbf1e6675239cfdb6b2c14f416b3b34860ab0bf8042315bb371f87ddf58e3ee50684d5) (-0x2b1558318e277c12c1c6966114b2bbde8b1f3ff0e8d3578bbeb7d1055cfbac5ddec8d41e7a345cea65b16c7b7eb39ac);
  Dbl 0x16a310f398fa6e11fc54f621dfc1364a7b8c6c3217e2f9934dcb0586756124df268afd7b5fca13766e3cc0637d73ceb1 0x1a8a1c925066f0a557ef7f13ab9640f3ed0eefb8129d5f9dc7cac8eaaaa97b94f7797756e06f0f96f8a41f4e2a7850e5 (-0x13b4ae42783ab703a9ebf06d1147e32cab4fa18f83ce118676ea23bafb346799ddf17b0e8e6130aace4e6c3a3735c131) (-0x13be7d4b6a30b1aac385b9584a46deb0d1eb1ab7686948a86f2561975fae87c1e0a0058d8677718dace8e81e095c82a);
  Dbl 0x2dce76ca49e8169e05f797b8cc9a9022068b94598217c52742dd6ce8bb2c2357637b39493d08f1f85320b90a6f2b69a (-0x5643bc6044e11ff0bc555a7328e2e9d1acf6e4e8152aadb1488145395c3aac979d08cec62664cd4e68a0323193c7a18) (-0x50b03a7d947d2922589e6591eeb0032a9d2a9b806f9cf910776025eaebff86c73d6f6f8a2dff9ba8088e3f78245404) 0x1f2b09ad05b424b255dd5b5e336d888fca9e82f4a59e35bd32cea23636fd0ec11e52424ebf79728012d6a1b17b64729;
  Dbl 0x38473e2e3ed2243fa3f6ab510dbd0154557e29ee31ad68812216eefe8fba951d061bd5e236865a44b29e8992f9fbee7 (-0x48fc5c2781bde92b2de647725e0f25938818d6c61e66b486c48cd581d452816de3f3e8ef495afbe203a7262a50a59b66) (-0x79cc2e5e91b7cf200086aa3095f904ec8115709732cf92d3ffc4104363cc173d85d7dd9cc22e123a18afb47daa2360) (-0x3ccb98fc3d9eff8e14bda6725abdaf6272ecb18f3e4c93bc590aac81bc862dd17eb29cfbaaaba4cc954a276317ed2);
  Add 0xb21cb7158c1f3458caf5c85ff08615c2cfe12bb38bc2a6f4f48747212ce006a55fd271402aa31d0a293efa1fa95e66d (-0x1ee12dc7d3535dbab17450d098a50ef011dd30c78af7e9c2b0d35a20bb600aab9b0bc0fc1361d7f623dad8b337c1c86) (-0x4c3f4a266fd06037bcba895e735a8172b5baa8341dc3a1c89d9f07b70ffe5ddc3ed0094a98e190a742eaa0f9f99840e) (-0x6790d0672e89e2b564ead25be8aef6fc486333f6dc673f292fce78978249628a28afea5ff62dfef3c5f62ec2ad0abc8);
  Dbl 0x1e4b4fe18680aca3abc9055cbd91fb6e7ed456f8d93bc2c766dff853e0847959a5fea44e4fd3b6541167c33f7aa2a3d (-0xc2498b1738a3892feeca32a9f5cff87233d187920ec835ee8bcd9c1c6826db82d4b8fb805240cd23b35cadaf27ab4e5) (-0x234abc38d5001a6647b468445a8e25728bff53c1e6438a4fb28b11d305ee3c348f6492c2b3359bd46652c36cc11de1) 0x655b095f6181c05df0a365e8034db3e7eac5d9d3bc92e5fd6b8b95431792d81dd34f8ab258d42972578e5945f11fa6;
  Add 0x4aea4600f1fb53d06e253716544d139390b5b0d034895a4ba422a16e1676747d57df337c64eb0fbb246870754db36a4 0xee82e61423dfebc46ccae5029bbb379b98c3dfe8449c915878d47e3d000654ccce1fa82b8142de2dc49c4de9d5e84b (-0xd7d27586de64ea906209eb399d95aeafb445487c043bea8cbc0136382c82ecad68e68a2f861b2266a159a2f99e3eb2) 0x93957ec9dde26cbc772a5bfb3c7d983785de70eacf81f4cc481e4a564e5079a76932ad5f48a629281942fe20041d17].
Definition x52437899 : Z := 0xe41aceb46625ab43531764a1c071125987d65b87c9c00e96dc84d43ef267eb28b752d2b5d93c11b3b45d3c87bbe182b.
Definition y52437899 : Z := 0x887b598004071bdc4bf02c4811336c2a329bc36ff18b3cf961be99cd46fe8e76b284c3beddb00f3ad36dd5f56c0e66a.
Definition chain52437899 : list step := [
  Dbl 0xc087ea2a9eade120d0d38cc611e2519af90c1d49214f20cba4ccede4d43f83e7c46afb28cfc65fb1cd799e5611d39b2 (-0xf8db819b33c59b9a4d2b673a15ee2f583a49db8ffe8f41574b727e5fce4bb9ef04ae9ea3b918de6da6c25c08f26f2c9) (-0x5917815848c9f4c173356a71ea4ccf095f773d97a6986f8259777d4bf418d1a326b02248f40504afbac9376e3c63a08) (-0x531d165bb48f70f2898fc2c606ef25a0e371351faf8b8a804897972f8a2c65a63d8fd7a89cf70bc260d58f1a2c0000e);
  Add 0x7295124d425d92485ae7a4de6410a180b24e8ba72b236abbbd50e7701d23e6dee94d08afcee678cc205a83c9d4c2675 0x3176c941616a9be1ab43de2c8af0c9696dcc9f5a8327b6458186060f4439e86d6ef05ee45f14c3dab74785a03288f0f (-0x1f8e26b385efdb19415c315324c74fda8bf33a29951057b613f482a494755a7831638fd71ad582a2d8555c3823127e3) 0x242f7aa7732287760664bfdf476a1fab09a702eca03121173450d13d634f90655f41b65ce659699f92daad12af6a12;
  Dbl 0x9afc568624be8a2051cbe926225d8018370e57ec46da1320c13757f89a7b50f3c65e3666ab62a9bf23e157a21f3910c 0xaa396b24da743ecc8c1591415ea7af57a65db933eece852d37a2e5ac69245b56b888b39bef3e7319f7f6a336904dcff (-0x39bb82bf91be8ad296db832e0d89fbdd9c4407eeb0125ccb4f128b25d4c36afe7455745262dc150b52dc833059a5ce1) 0x345568337dfb8e5d25cff676297a1a50ed99c1c87801d7ab8de768b9602be4070d0618f6e8fb444e198a92d0c75f7bc;
  Dbl 0x51c3f824487073ba51c9bcf1cc8f725d00173e0e7c7ec59f4227ecc84b90f973b639e539c32a0d2b45321803790ac24 (-0x101a2e4acd57806b397dfd5024a599fc1123952d7fbf57d2d0fb0db083522803e0c28391967c085b6e4f5061f6a58981) (-0x10118d829690aed8b327e7826e8007a52def3e9a74b6ddfab27291fa7a9454e4e20f6d012fd41545a29b10edd6e69bf) 0x1386665280f86e8e97e5ee91af0020c5d9564f9c1c0271281a603cd747a7ad73331aa270af90db8f8c9f4e42151f0b9;
  Dbl 0x795249cac1bebfd2ab370f5007dd97dceb96715ac58d10ca28cb0b59aef9dca1bbddef381f81f1b9e994f095620a9cc (-0x1b87de7957a1deb203f780b04ade8e7052812f24ae872e50ce3fa5b847bf32cba8fe895f7a90ac0f6d9fa3796c9b09e1) (-0x236052d100db59c15dfd21f11e260f72229f01d793cbca5e69a9c7fbcbd3d28368640ae971e357ed681206046aef05b) 0x22415d8ddebf935879f777da180bfed439c2e62a40ec0b68e2f1c49ff88071cc6b14f6d37e10af3f15f51b5fee98484;
  Add 0x6099ae8cefcce1125791d29a81f213950302bc6ae97fb702ff9f72abc9e49f5ebb1676379a2ca14556601f392743885 (-0x2b2ab3c3c44cd445a45d1a8343dbbb47b8a236c48d0668fd5297b7a4742e5f5aa00e723c58621c7d70afc73a237e43e) (-0x166d9d0d0c46b5084284be5cd8701c4eab4d1e57056b6d833fe2739864b459fb248721cfac5aa5ebaf7cb6d997295a2) (-0x54a8b3eb9638abbb2bfce6aaafc813c0ecedd82ce31f13cfe1ff738e5ee12d663f94914d8829768ca25153ba5c9c1c9);
  Dbl 0x1889099c6dcc2f016a64ea653ba37370973051e081a9efc3f754dfdbb4f6552e01b2d1bb3f528cc0883c2dcd07f76b94 0x123be240b42fae70feb4111168493009480ed595d67cabbd108955e3c4b27a67a4d62aff838530079f3781abc8600d57 (-0x17263ee8e3bd6352ed7199e673d3c67c4875169cd3f0e41914e56fa83576a404bb77d2ecdce48fb7b58d55095ff22295) 0x7534a025a5dc6e3c6ba27fd3be7907eb6c18747fed802ff7172007a79e6a4d3fbfa93b529ac917e8f3dbbf2eea275e2;
  Dbl 0x1f21feda59bd775d27ca47fd531d1c03e1b007a5049534c8c81f21f51d4c8ff45169547ad7cb6dec7ff2762e0bdfc72 (-0xd23e45abd0dc44a4cd34f3fab9c15884ef60ac47575ec0d87ae3a0d5424867e109391145d9c6df2a3034c619148f6a5) (-0x2545dc1d4c97d2666e4fbdcd94418a3f39109965fae9792e4ffdd5d224fe97481f66a42d6795e4ed9767a2bd4909db) (-0xc9543167e9688cb7cf223af78fabf0a66b19fcb605fea7d7908b78ac54c9735b0274c43a1785690b0872bb9d104dbf);
  Dbl 0x187b4fcaa607e4cee3fd33fc7ac9de3caa157ab78706ddbc92be6049029955f16e8afada8a11882aa0007498ca70c511 0x2a72b03b54745e506a5cfce9da5919b52ec8f099f6a952fd50677ec541874c0039477331fa845d1f0fac889f939d1a93 (-0x170c5f7af080beb22ac7bb6959d28044b4613d370d1997d03fdcebf3e541838bc6db40f4ea1d0d16db94f4263899df6e) 0x2522e4d9a731d6da8d6a90ebfdd64264389a926387f05ca34a6c387bc5a91cce2972ded6f05c06587170a50d00f2a5e;
  Dbl 0xae38ea3b1bbf14a985463e731842d9ab6682bf55b5ac9c5c1ebe0de5badece02c74bf3235cb3a098b37569cf33fb3d4 0x14535f7dfead4e8eb21fa618c9cf0ee13eba405df9adbd658bd8242f5096b5bfe268ccea010df20057b676ee12400c0f (-0x48f4063b18f3b356448cb416433452d9d96ebb36652adc658688a5aa94cc0687a90be3550eedbc5ee2e1dbfc1e844b0) 0x753dc219d062fb86781ef58149f9e3ede5cb8364a72959fb114c708d5121d44cfed79a7cdf513ba52f790e806673f9;
  Dbl 0x4c4e7e6c479badb984b667451adbb12ef65f18ab05271293c91a7d79eb2ad7f8299215034f8d085693a0e06380ba5e5 0x1b79e95e5e35d6bad8b70a54c8165e3a192d3854c0b058553cf1ff6a5a7ed4810383644741d87049d1904ddc15b4846 (-0xdfe9fb8bac76130b39c81cfd4ce82207fc9a06f79255e6cda8fa27953c64525bf0e14d930316cfa64c16ef85da8d7e) 0x79b23867d8c768c725c7b2d03c670c09ac609b4ecf573917529ac68150438498934f150c6ace71d7aa0d3f06a63e6;
  Dbl 0x15b714755b28c808b9b50b6a58cc04d2c93ae517a768f48b6254b1940d4c85f94d1edd36242a19dfb46c5ea46f9ca91d 0x249061f4ea946cb63d9a9d4bfc2922ba311687cf66f8395e1d6c7c94a24c56f30faa67346d779ee9ecb98e436ff1a743 (-0x1222301838bc18cdc30648ddeb964fe2063e728c064c264dfc1c2145b24dd69cfadf2a1e9533f9134812d366c7baa133) 0x47bde0a40d878ef04222a9b09956b561aeb6e590e1423516a622b16c7ae41d7d3ead74922c99cd89bc46e567df87616;
  Dbl 0x3cfb9f6e259c80ece313f1252c6f212ef96960ea290ffada5c4432b1c559102918a94752e5b287c4959f5d9a30ab4bf (-0x62776c0d656a7be73d451a02d657d90da4830990ce1f66c21eb9dbaabd12dcc71ff60915b80018a2ae705bcf3f0ec7a) (-0x8f031ddd5986375e09d7c50c94f7b8f6263e6f0ec2245fe1daac8bd742477801fd06e20858fc6b8b53c518347fd4ee) (-0x848be0824397186b88b982c6c8489c461c4238c1a6777324ed7a374235aa89dadf47042c33a597f84a4d3b47821718);
  Dbl 0x299c351c2ba3e0550fdb1859f8110e47ce1e7b1e27c3271df6a7292ddab05ed7ae09bf644a7338e3e2306e292edff3b 0x1196fc73f9bb7c6f70fe9ecb7ae1fb7773f1e6747d8f81042a7f0411096a0ee2f5fb766428bb027d35f849ace98730f (-0x4294f7002f581fb41267eb7ef4e414542800656d0bba9ac8c7c43c706914a435e9074199eb2ee11acf8a27ba1d5b4d) 0x16b6b089d69f37894c4349d269abfbcb45c86d82e79c5ddf2494d93fb0caea1a4dc9eccba109e773da8d8f79527a042;
  Add 0x68ecc0ac76ced1d0c3be7312b26012e36d391d99bef5443ba297f06150fecf0fc85b74534fb8c0549328e70c0318ea4 (-0x178d679ec9b22ae7307901fa31b32e30f17e8b07209b30b6cf783cc70006036ceb327852eedbfd4bbed58b9e7d02829) (-0x1a75d0503cf5c3aad3c397cc9a08fedf4b60f8641c5c834d5dd0e43714042a0068c7e665403504dd67fecc0d3a8df28) (-0x2a5c18eb3671da11198442a8ef1d88db563820f07f2e400386413aa56c077272db98e1270ba406020f5c7a2f4ea648f);
  Dbl 0xec37db28f7d57e92fa97522683f9aa0db37ba6c903e127010630434b46f6ab4d8d00a35fb1aac629a0f698de3c7fe15 (-0x568ab91720e6a44ea705d72a08756aede207392b9472ea5b5a7692150baa76718a18f76c4bc8384e11a0b2dc07467d1) (-0x861c58d18c69ba6bd68b0f6e916c9eb9fb4a2ec9ce570014e159f5d11891a36a0287553f356d5fd0e7698a5b9646540) (-0x163e0507ffa2b6b5d82c0e5d558ebbf665927bba52d5a0b9da5d3365f4d29fc9c779bac822b79be241cca32fc4412ce);
  Dbl 0x19e8f0c99872204de3c354b32a1cb572dfd2148ed3fab663ab23ca5445d0e72275fe5e6070cecfdbf0e1b49349fe155a 0x106c66207f865a177ae61283edba4b7e79384d7bcf20b85e9f5bdd78f28e3bf1d241624492b597129ac2a14463f644b7 (-0x19d0e60cc0ba4970dd31bd132fd39fd5eb58148bb9d731cb55e519039d80bdaf83556af1c21ac8fb1b02b2ce81731ed6) (-0x35f13c25cf36117f6bb9e653b5c14fc063e8e06e456cd2fcfd8b6dc5925db080e4aa31af2668205942e3a5d20e13cba);
  Dbl 0xea4958fb459606509c67e8a8d42951748674b84b3d0b81ed6b93ca5d6f7a13815edecb5ea0fe1ce58716633230ad678 0x6f7b016bec0d5cde140f2956365b6b0371dae20a6539766ebc1b4321cdc018115e2ae8ba05c33769bb5efecf0fdd330 (-0x83ed232af32bc210e1035398a5e86a38d3a12f93f09297e9ffa208fdac01c8adbd2467351356917b1a5e9aa76b2c69c) 0x24ecff0a9a17724a40f22c9a0ab78d23beb46de8d5c812da881d33e12d91d4f5440ee27847241a62b5beaa934460dd7;
  Dbl 0x16b3f6eeadca7364f37cec75eceb3b205a1685032655547f1053a0b21f2b4505aedef9764a43630f21a307ccb9422216 0x138b1c0e1cbb011c6b4fb8ee3325ebbe4052bf274fb5f2782b2d1290ac8b5581a26fbebc563404e4f48f55bd999173f4 (-0x13d224e2d83c0229762a15cca94d241f486e275a16a69b3a0252026e06ef4bcc6df50d0b5edd979e81f303296ec1343b) 0xdae668c58643cd8fcfe76e2a843305347aa52ee5f2fb5af436f687e0004f5006baff6bc2e37c41129a64592b2dd3c2b;
  Add 0xac70627484a4fb3944d00e27ce0c691bc6f9b65a011c1fe1bc8e0ac509eb9f4e7f43c752103f158af311bb779334925 (-0x3d8268eda6620d149498330ce245a57db2d885fc9e53e773cca8ad67dce8c5b90b6dd85c1de7156cc20e0fb296a3f6c) (-0x4777a63d01cabe9d8ee9c2e96b33cc4184ef709a72e11ddab37b4ca88646c3a246e80dcaf176c1992ca1b825d804b47) (-0x759e40b4572a96475c55db48a3526c584750bea684ef69627b112937f53b742f682a23705c9e0c0238a16f1f4f66ed1);
  Dbl 0x6e574e5982ef04aa069e6084347164f40ec6fdc3c8187033358daab274c2d0f91c41a8b2f93f5536c1b90eb9cd68b2f (-0x1a3c7dee1e1435b3799fafbcadbf860ad33613934e017f3912b8ce619389ca471de0857920931e271ee98fd9c5e5544) (-0x1d4331517d88a8073b6f9971feaeea114cf90b21b03338ec242088c86a0a42b67ea0c5ec99a2cc40c1bb894fe10dcaa) 0x2984b49f1c3f794a3da5268efbea9aa20aa216217d10495d355ac7d46bb95217259f4aaf65abd6333b42c898d240d6a;
  Add 0x1627520f2c6c6cdc4df2de7250f73482c626233cecad2b5fbe116e75b08c73668a512738e1f2a10aadfab08196dbffc6 (-0x1209d10fdee26a154b4dd16adf02c6aa832c29e84844df2f07cd3f69690ab63173765a02fcb2c9672ef498bf5d489f1) (-0x12df89594044a28f7bf377819c1a091e71e0245320613e24d8aaa635f71cdd81202675c729759109f36fd4d7da106fd3) (-0xb42311cb19529046a7c5075cc3c106fcd8ab671a4375516f577edf34c4dec841b3ca962e3b73fdcd5d84d4c5982a77d);
  Dbl 0x4bf0971fbec2a11e7d3af3dd8dc270313472cd7525fe6feac043487cc58ebba0460ba15518521814ffd10d710b78cf2 0xa0f8cc3720d341e0861ee291eefbdc2896415dee30aa82bfc296f064f0e82507b4d88f425f13a43ba2163d96fa1fbf (-0xddc434e41d0aba97439341dbecf74a75c02e605841f3123ea6b73d52038b9a2f302984109cff1b9f86082367b77b48) 0x2ca6314191749be3897f529336c1ec28625dcf329aeb854bfa1d376e4adc3561269f96380cd78145befd8dded4289d1;
  Add 0xd713be2a4ccc7704c119e77dae7fa3dfb46773d6652c6b84ca50394e969382de60a537a2cf527d1238885ed991285a2 (-0x1c19056ba20bb2cffee8f438bf6e882df7c07e5aedf65605828443e921f80572463097bd992eea0b23eb1356a97ab77) (-0x6f2dfd47bcccd09489e2adb837487b40664b111313e5e704e56c33add345f3a6773e6a298c749b7b6882a304dd839f0) 0x1866e550f29675021afafc056c5273d09a78c72e186ed782abafa58711fb34863d0e9183856fb46c095727e4bb7309b;
  Dbl 0x1831dc96135d5b8a5f647c40825e1118fd35cd28bbd2d8ad874e0cd81a122dfd3052f40db28cecb70ddc0e810a8efbf9 (-0x117b52a3f328a2d4f2a8d5b0c78f00d75e31e79827f51a3757ba67c75dca5beb139b00a834ded011282997d2e85c7e11) (-0x1682e250461718151f3ab0e0ecc52ca871b4c95e19b1fd344f3e731e2868fcdc2e5b1b874dfb62ff224ee2054272f51e) (-0x38ffdfd30e67c474ef9b596a9b5467fb9389d88b243946ab70ed59f725337e9b40691e73925ea20675b97526cf444b4);
  Dbl 0xbe48e19412714812c4306aa6fff2dadf3cb878104e4befe0fe1a2b2f610486c3d506b805bcb0da34e040b47011d3b36 (-0x170490158fc742a54d791402372f5a3babc852c19591c5e2c7f30e6992b6ab3a2b086445030be85a371fe5020defd7c1) (-0x57066d625b47288fb6fb1ddce52afebfeaa769650da9e36cfae67974c258c34f19a1f04d6a05a878aeaec10f52c5c7f) 0x276080bba8251b48f86014f80884241f7348662e0e1e5a274b620758a942e010431a9a6efaed9216205ae1f3bb814de;
  Dbl 0xa997784606554c4c3dbadee8dc168e4b7f10981cbd699d07063b110e8674a9837dffea7a335e7f87e4a1cb848ad5e50 (-0x364273dbde32ce988f858f274f78d2a1578dc76bca42d96b2020cf00e585e6c362f4bba5361ff9b7a7ee2ee1658fce51) (-0x4520709c5f819ba9dbde228cce3af74c5e269e5d792a94b8e4ece630f86c327111cefad63c8617e41bf446e18ddd0fa) (-0x692b7a84aeda908b39a49655202f93a7a82e57a0aacd17edf924f8caa836f3e7086ede32031b20c9b1e4361fc8b265d);
  Dbl 0x22157df3436b1f5a6fe14ed21891436c574f61c53c258bcd52ee243318fca35930dbd4ff52e3391e55077002b5f4eb0 (-0x353c2f3b095c0f9cd28947ee6cc09c2efa4b2a11ab8b947c45fdd3e01fcc20e072e4434eb1c52a2cb1aa63285dab7a0) (-0x2cac983710662a94fe6df10d98b857275fd30c27613083319f16c930a894581a1ea977620481667e23e465823ad6a3) 0xd15380062ba7af06a0bc69cbde208e8a29e3d8c92c6ed9daa49ad69e1b768d6bfbdd3cf805779e8b954137795d6fa;
  Add 0x101ad3d0b5ea1ac5d2bc8e5e22fcc085b3440d6636338f8af1997db3f23cc30c26813cdabac7127e8acd9ca7d82fd3a 0x4b551c193e919e7fcff0de09b3f3930f320060a3072baed929239a73ac8ca4890ed3b5cd83210d060764b504064655 (-0x9f954d67dc65a60cfde49a55667264817a25b70bb795bd031f89fd2e62d002da9c25d297ae69fb6a9eea4ddaf2dbe) 0x244309b46c9be88dfc50f04a00f6ca5d5e328b18b232504108f6252498b3c35e5836080875d56dd5f8314a3e73e329;
  Dbl 0x4ceec95edcae35043f684906cfe64027dbdb71c90eb2d3fed76b9a65b63469c04efefe87ca76b0302c7f8a6b3425b4d (-0x9c8a65a2ab833f7ac2a6c37e69827620e12cb8248ec097aa876ce9f35bfc28f4b938ad6cb5a35dc9cd8559f7db0dce0) (-0xe39a915b7a0cf88f328e66023911adadd841e624dc5c5870598969edbffb9c08b9f5af83778cf6d06688aa3e72e481) 0x27e9c9abeae9879fd381a94325efed02de9319463d62870c8ceaa6ef2415846d58bc5b2031f9a6ef309510cc8ceed7d;
  Dbl 0xefa37d51da612a2ab3fbc991d800f7c4b7f66bb99dc90d3f42ea8d9df0b1a3e5326ff7e59f43566b3171c02103026ad (-0x26ee2df0cf23808f3e3eee12d36d234d297ff1941188637ef77e7749e4d346f805d74dd5b0b22f80ab4c7448ea8651e6) (-0x8a05cfb138f9554a07b9d154ac7336ee74b61a75229ecef21621991ae44dd40114fa2bebc90f39711ade238a4435ec0) (-0xc56c3c194ad067c054ea665c2436ea083ba7dd3768eedffaf4ac75bba0a9f4e07c7d65811607a92c9b999ef6ec2d415);
  Add 0x143a5a7df5582af2e91fa1cf7d7f7bb0bb08a9529400da4c19722fb3574fcdcb6e39a88d15f242d5134f8efbf6fc0b8f 0x93cb8b48c96dca83d0da2d2f609ac61c59365725a3db60f165ee85c0f8df1309dc384791adccbf28f3840ca39e6368f (-0xfbc19a5a33a67210c2dd11bd92f6e0eb165cc6612fdc82a332157cce437aee8f86af1d0d2b84013cffa379de7669a62) 0x445af69ac09909e75704cc083c568393b689d85ffb00d39089c545af684d4807548262963421f300ae5db6928917044;
  Dbl 0xf660843051301a1eae08553be5a6c7f8684fe585085026aa56fe7f1b3fe162ca451277dc72f59296a89c623966fa5b8 0xfd4ee27576b8810dfce0dc81db46ffd82cc25b0557ed1f3a9c6bce98ada2d89fd2ffa76549e3e5c7a33b9a535831bdf (-0x91e4d9187e3b88e5f6f1d0202507ade5f6c6e06cc612b29f424c170998482e53f1bf40653b0958a8c7e9461c77b8acd) 0x3c79439a3bbd3f17fa1d9f9cb49bcc4cdd77646e50f6346eb19daac1212f37d31329121f88ee82ff8352dd40e9887b2].
