(** * Proof_Generator: the pairing of the two standard generators, computed on digits *)
From Coq Require Import ZArith List Bool Lia Ring Field.
From Verif Require Import Base Fld Tables Zr Zp Spec_Fp Model_Scalar Model_Fp Proof_Fp Proof_FpRep Proof_FpTop Proof_G1Base Model_Curve Model_Fp2 Model_Fp12 Model_G1 Model_G2 Model_Pair Spec_Curve Proof_Curve Proof_CurveMul Proof_Chain Spec_CurveCode Proof_CurveCode Spec_G1 Spec_G2 Proof_G2Base Proof_Chain2 Proof_G2Psi Proof_Lines Proof_Side Proof_Bilin Spec_Ext Proof_Fp2 Proof_Fp12 Proof_ExtTop Power Tower Ext Proof_Cyclo Spec_Pair Proof_FinalExp Proof_Gt Proof_PairSides Proof_Steps Proof_Miller Proof_Drivers Proof_PairTop Digits Proof_DigTower.
Import ListNotations.
Local Open Scope Z_scope.

(** ** constants *)
Definition lit2d (c : Z * Z) : t2 := T2 (mont (fst c)) (mont (snd c)).
Definition lit12d (l : list (Z * Z)) : t12 :=
  match map lit2d l with
  | [a; b; c; d; e; f] => T12 (T6 a b c) (T6 d e f)
  | _ => let z := T2 Digits.E Digits.E in T12 (T6 z z z) (T6 z z z)
  end.
Definition one_d : num := Eval vm_compute in mont 1.
Definition gamma_d : t2 := Eval vm_compute in lit2d (0x1904d3bf02bb0667c231beb4202c0d1f0fd603fd3cbd5f4f7b2443d784bab9c4f67ea53d63e7813d8d0775ed92235fb8, - 0x1904d3bf02bb0667c231beb4202c0d1f0fd603fd3cbd5f4f7b2443d784bab9c4f67ea53d63e7813d8d0775ed92235fb8).
Definition gamma2_d : t2 := Eval vm_compute in lit2d (0, - 0x5f19672fdf76ce51ba69c6076a0f77eaddb3a93be6f89688de17d813620a00022e01fffffffeffff).
Definition gamma4_d : t2 := Eval vm_compute in lit2d (- (0x5f19672fdf76ce51ba69c6076a0f77eaddb3a93be6f89688de17d813620a00022e01fffffffeffff * 0x5f19672fdf76ce51ba69c6076a0f77eaddb3a93be6f89688de17d813620a00022e01fffffffeffff), 0).
(** the second generator *)
Definition qx_d : t2 := Eval vm_compute in lit2d (0x024aa2b2f08f0a91260805272dc51051c6e47ad4fa403b02b4510b647ae3d1770bac0326a805bbefd48056c8c121bdb8, 0x13e02b6052719f607dacd3a088274f65596bd0d09920b61ab5da61bbdc7f5049334cf11213945d57e5ac7d055d042b7e).
Definition qy_d : t2 := Eval vm_compute in lit2d (0x0ce5d527727d6e118cc9cdc6da2e351aadfd9baa8cbdd3a76d429a695160d12c923ac9cc3baca289e193548608b82801, 0x0606c4a02ea734cc32acd2b02bc28b99cb3e287e85a763af267492ab572e99ab3f370d275cec1da1aaa9075ff05f79be).
(** - 1 / y and - x / y for the first generator (x, y) *)
Definition nk_z : Z := 0x12bfbbc90f8c9115cf64b550825ab14ce4fbf27985b1539ac1e34dd69289c76525c077d87fe6f575e8ea4619c30ae56d.
Definition nkx_z : Z := 0x733af64c1dde31ee0944c460528ce94947f365775303b9613d8309c7a68ff761cb0217eed27bd1d32bf233d66370554.
Definition nk_d : num := Eval vm_compute in mont nk_z.
Definition nkx_d : num := Eval vm_compute in mont nkx_z.
(** the steps: is it an addition, and the slope of the line *)
Definition steps_d : list (bool * t2) := Eval vm_compute in map (fun s : bool * (Z * Z) => (fst s, lit2d (snd s))) [
  (false, (0x15a76ee3d8d1c3451005d56067cd27cf7598a85f81c23cd926ad0ec05ad6440f1df034cf36701a5831c9fb39250e2ea9, 0x16d96e785c797fb5d6afcb1400d7656829a6a71c42deb7ddce5cd2ccda4704dc0e4b92b69009367bbf6e6aa19488df66));
  (true, (0x14b92565b748c30f253912c6cf3aaa45c2b370e810ea9361db7b84172cb1e68ddd09eb1296e0f84058018a4538d64e8b, 0x3c50d0829bdc305ff694cc9bf914addbdcbe307142bf7cc7b8d9115b96656327dd7978009cdcddf4728a38086aebcd7));
  (false, (0x56ceab5d5d994dee0ca07fc0d41aa908b1a833b94e768d2dec05cffe4a869aed2a64ee86a72f085ee4e78bd4c2aef8e, 0x39b596a976f556e5ea4016a3111e14b674a67295a242cf3b343a6878db6ec20bcac1275d23aad6cd3e84e398a4e7bc8));
  (false, (0x6e3ef02d1a04e74ab468f6e04f007b067140de16796e93717f97204641356999f8abc87a7d6c3a51d2dc5c2080aa3d, 0x1bd56d5682c8e27f4e58d1fe16609b948cecacbf47561314d3adbfd218516e28b5be780d59a6e961956b585b6151749));
  (true, (0x8ecc09a9c1f157a41ff8574dbd225e6d360104b08b70bcde984dbdeecb87e54d15afa1ad4d82ecc86926478060abf07, 0x1459dcc20ccec09d6ac723641fbd91572a9f1c1cccb841f8f081b995baf77ded82e6c1ee979b5618adb99987cc3e887f));
  (false, (0x75707a467e7543c28370330bea9b6e4adf41fa1060713eedb760c98b7aad959e5dfc28db5abe92a46d0ff04a4205803, 0x14061839f139644bb20e864718cfc9c1ee8960c06ff2c240598a8a6da7ed2bcc091f594d8b0715d2f6a16be8d5828197));
  (false, (0x1deabfaeb3374b50119ecb98148910d6004895792caa88dad948685eedfe9d3ac7315ff9bd8fa7a943e0e3a924e7492, 0x7c9b05e8adef4de506459f7be98bf07cbd25fe6f4ac154f7c01f5d8a4b9368fc9cbb8ebfedf28954ae85d6e9f58c709));
  (false, (0xee6eb50b6c77d09551c6a60826f728738a490c04918351790b28f2aca89efec977f5d8be5ab1530cd829c00c02bb5ad, 0xfe2b8fdab71a2b128d2ad1b08e43b756d77e33ad8d6a444a32fb2ef9c6d1098adde218e3fb06d66bf9f7d4b7015a6b4));
  (true, (0x14bf838fa391c4a090ebbbe743ae2a27fa167025d88ff625b3bef3953ab3e70c52b7f1fa0e81fa12d05c20409b6ab80d, 0xf45e1251275798ebc25a384129e9223de8b300c58513dc4d4e26bb101a87dc37eb1f2ad58f5ce986c824b89b843b64e));
  (false, (0x15f5f0afe4eeb7545fb13eb055c6ad903c2a3e4b9f14a8dae81217db1696daa3753ccd844396189ffbd89d01fe27fa5b, 0x1040f087e9a0b6633fa13692b8f5f46e2bd5fc15d81b368ac9d2464eda778b0051c1027ed3da9931ffbf361f326b7282));
  (false, (0xf10733fed03fc5b7ae27fc457630dce3b4db45cbad696a6351c7771105a0a1096dd87f04527a34a70ec377ccd63a5b2, 0x855b8b1eedbf578f7498f370324634590aee6093dd239d9306991a8af53fac94e1e9b5253a208df401e3d6bf657857c));
  (false, (0x17900cb270764782b3eca3d2ec46a86181ef1ff2f83172010bc299acce5e8da96b6b932d6c92af226aa27e2cbe8fae21, 0x1be7df7094ce56532653ce2da33c37fe337917d32826e1bd09104615d27b1dba405157c82358801a5440afa7826f03e));
  (false, (0x15ed1256df8e5e5ca95b56c878630a1ca624fae6d5770503fc7cd3706f331af3de61fabf6cf96397e7b79f2fc8c8275d, 0xf5886abb33616f07cfac605cd5194bd83d804f9da8e5cdaffa3eb442aaeb1342a8a3887ee76aa06cc2a711c9ed0f30e));
  (false, (0x249a870907df1494e56fc219e01fde22386755f816c125f4c2cdefe8611811647fac337765ce308dd13ea9ec917f81d, 0xa59546d0d9d0d18614e98790bdde01f23d77cc2219a64e16678659f6f9ca9e64f594e30c3cd52b28123518842661348));
  (false, (0x3ca74026cf32fba56ec4ffaf56bfc4d589fd5479b90e9a3832640fbf5ff16fd5c8661358f86bbd730aa1df76e95257, 0x16f491b5bd383da7e70c0012e06dce324741a7e96cd8fccf402fb94e1c54fc0073a49b0577775e0ba37cd47da598900));
  (false, (0x9a76bae205af60fb63330d38d4d0d00c4d2739ae3a0b1763a9bcdec2fe60921bf629abd453bf5d35812bbf0123c972a, 0x79042a88c84c694ffd3fa1257cfc1f1da9301aff5ef309c649bf53444907381a7d0f976a5e2fc320bd337a5e6bf6e59));
  (false, (0x135ff64b4d73a3a2d0f886b2eb84e8fad6b7625c837aa2728eeaf2f380047dfe3a21b11ba36890bfc74afe64e9f3840c, 0xcc7efdc19164223dbcb0b43e4ee3c4f4c650fbfe5a0a3700cd16a519987e4aabf6bd8d16fa3e40ac2853a97b01176dd));
  (false, (0x148a5374166cf336bdfb590ab3e98a0f2d52eb1fc8addbd73d021e6c59ff8b91a8fb6bd02a0d320eaaf52d68933508fe, 0xfbfa5d5aa28b0148c5da91a16d59eff4dc469e9a00aa1e6c9128ca3eaf8fb765006eba3df1bbeb0847972fc9cc9f5ae));
  (true, (0xd75df1478e683d022e71dda20b2ee156e2703ab722d3d6699c526b1363aa3d7edf86279a9db8b55b3ee3937fc331282, 0xf657335d9eabb7551b40995f1aed0135a3006438f62b0aa29f3faebba16ed6dc4cf9025d255e0b22ef5ea34500caaa1));
  (false, (0x1137f470c8f7d00baa56e5c03e76ea8acb143c96671cbc65033e67ed9f2b5e180252357114e4f467f4709129c1d6d6d7, 0xf23701cea5719c6d8b0d3f3bc8572953d8f42a55fe9970085a5304db0b3422f71d7ac93a2a95cfa92d0088ab1308e85));
  (false, (0x373d7203575fda92e7b4b0239b7c7695d2524211d5341f332c9317a9c538a1808d10350e8ab375f9e79671f77c33b38, 0x7b03ee28e327f04166f5075f657d148ed56fbf731787b28e9d5746328bce07da2a04f4154a74ef22bb2c45a0f0992be));
  (false, (0x18b70eb629a79ff3f983498518b16faf0521c1c5a11c352341629374ff0d1ac17362c7944d2b6e4cdcfd83a0692003b0, 0x11fa0abe9f21dc673b14d9174289133e7279c670978cd5690526f609b923d7ba3b37b63cf6dd615a649c30b33d8b88ac));
  (false, (0x2fc21e36ad4d0da0a00add9bd428c9c44f9a83980265ddd5cac54906e73bae3b43599982d6310ed50636162786d1b75, 0x2b70c4ecc512e5b7a263f208e2d6c8495568d22744ab3f376045a0b6f715c18ef69c37a80e8a4f63bb295c1f909c9f8));
  (false, (0x10b916005fc2476498beed417afa88358fa085d4db1d9e6f864b49b4b96dc11dcb31a6b2f313b674fee5c83040549617, 0x185827ff9e3c833ac46e1e1674a0ba0ae49290dd243bdc6145d1d4d76b0b03b8d7da125b0a5f1bacd2bc2f38d4e1a34d));
  (false, (0x1274aa625858db0bb675b3bfaf508b2248a1fe6ffc5d18d0da3e0d01e0bbb52a301585cf3ce32e18da41a2016fbf41b1, 0xcd9b76612194b440cbd9c67af3784151a3a1a7585c177cf0df8603dfa938bc22d0aa98e4cbc0be362614fff6f6d4898));
  (false, (0x232f7c41bf2d0ca9a4a656040864a9ec51fc3fceddf7498e96b0c22d39fbbbe7f55d6bc35a50965750c7716c237772d, 0x126b7366a9ba4cdc1648b905eb2d53ffa24eaa0527809305911e6efcf7cc8f0983f3a122ebd5d6880bc93e525c5283bd));
  (false, (0x3c52126f27d2dd758ab077088f758a89df448c1dd45282d9c2237332a12d63f617991e090b1d3aaedd7ae3ae5ef62ec, 0x19ee364564c01cbdf0bd4257877b0d7e053d12f91fa49c91b79fc38b4398e2af5a4ac3f48bf85f2a28b11ffbcc48f29d));
  (false, (0x287b1e39767a3c2d102a8257d4c97a8e9d64c41cf2dffa1ce9896e5addb637375420be149369971c3fc33245bb7b9cb, 0xdccc3a8b263abdc2c1112a2ba4e1537236425a49e10a76b09b6128f5e000427659557e16f6e6c10c2da68b535025ac5));
  (false, (0xeba32ca0fdf04b16e700d02d09be055097f3f4285b74b299e633711f24267eeff96b84c9658e94dff575b044fd12535, 0x1853f7c388088cef95618ee7fc016b0e19f5a9dafe6150af099ff3b68fe53867aeee330edac31a776bf2f2a7eb8d07b1));
  (false, (0x10e5f821e745ef290f77339938e8c939bcfc597914fa0bc4ea7d0b2339e762ea1d7417bc1393c1940f25665663934fc8, 0x14df29fafe098da44c7fd336e97eb8687dab2a2a640c57f41257c93b17f3e38108e6f373fb68057499c7406aa1ace48));
  (false, (0x10ff70c91cbb8869a0659bf2337805ebca15d19f40277942937c0d4560eae2eee4b7ce1e54863ab6d50bc9ff4874b6e6, 0x1951ff3142b9a208e5e69e5942f145b0f85554ee195ae299cddbe3decddda92adfd9039a7b3cfe640c29faece9a85e53));
  (false, (0x15d2f6b35415870ddc7054f2e32a1465866e01898f1f3b142c02b4ccd505fbbb8d8bd06421805f763874894483dc214c, 0x183abed5b2d1d128fa596426b89ca852d2ba8b3590cd530181c4e72fdd8802ef73ab15eff6749d4bc9865ee9e261110a));
  (false, (0xab36c91eeeaabb24820b390406d92af351a91a43b294110a69e73a9a0f2894ad32c28d81f078a90be515d55a39025dd, 0x1029fa62305109a4d20176b9533e34319846e866ad7ddd36f64973cbec18695bfc945495873b5a72e8ea0e7d255b970a));
  (false, (0x8bda1d762c986632aeaca1e09c08bb4fe0abcaefc921a404b66f01a40c86e83fded68478deb02d48f2ee3be7ae899ed, 0x6d4fe75b0153bdec12dba827c67f5884f061f219cb8ff55faddee2a55b5154b35e2696672be08cacb4795f5ddd8497f));
  (false, (0x5a79df85b0a96adf6e2dab8a322ce58631513aed92ce0df838145c7842da8419fcaba0e89eec90cedffb5559d9f7cd6, 0x11b7c924610a8268c34b8259fb3d98acbbe375c161f9d2a8712f911d31ea73387b467687f36133a552f9211634fe2feb));
  (false, (0x1971f0b4a71e609b35922e78337b308d7d37a5e715e2c6a7544aef13d7757e76ac4a6a2ca05df784a5a683833d2e1464, 0x503aa962b29d72a5d9f6cf2771a45a92c45f43bb070b7fd3fe5162dcc95efeedb645acb9afd8643829c2749745e919d));
  (false, (0x1657a4b33e1400ef6e296282ea313e60d4b8240679b0175efcbc9d2df3136cbd1a372ac4bb42fc51b2f0d50a3d7a6796, 0x10992497f5f8bf44511213229f6a20404576105e15a4930cab44b72c1fc2f89b5eaa0345af91b402ecc6cf1a742796cf));
  (false, (0x16691c1bdf57ba041abb3d97c8d34c6b4580edfc55e023b1234a9695204bd44f55ea4de60e51e461db9c85f42519fea6, 0xcfbf5ccb325675b1a3becefdee4fe1d3c64b3fedec5632647f7df16fff0877b21676607a81022cb0b3b0c523ae71819));
  (false, (0xe743528ce0c94e1a76f2f6006448cecfde912a7d2029dbcc74774ca1af660eaed4d832930d36077b6d0262e218111c1, 0x133d21c52017365921207d63c8fb346621601764fa91b40acd681358d077b827cc148be2e1f8a574cee0dad622d6fead));
  (false, (0x1902b1e10713c8d95829b014d6b5d3a93563b2103c29cec1e7983befc104f7bd4886ad3a08f8bf2310745715d8e60675, 0x142c2105c569b0e7aee457f14605027ef09f9b7d03fcc1c2c81c0dc22eff61dca36ea27f392c934ad398e9471a2a3e6f));
  (false, (0x27b1b3c904791e3fa942dcd803b24ff12a9cd7524a26b87c8dd9dfb56ea54ca5c9d26e68acd42eff277e12a1c665cd8, 0x162f5c264c2d2728aaa1f652ee6cbf6da2000115b0cca0d89754d630e027f9217dd0fba67a880435688221e820d4164e));
  (false, (0x13a3cf500109646aac4d69e33e86b7943ceda2cc678e671964192efc9a09299ad173b34e4a074239eac7dc93b8113ddd, 0x12f734fc3463dc7adb90dccbbaeda04445ec73fe1fd859d6076071bd0d45623a4cfe964789c20af4b5a694d4d6d9d45d));
  (false, (0x65c82633f9d4d20c07f6ad4f79c2172e21b91ba79a5ea2dd1453a4587d6c2ca2341043e1ed40e3c2cfcc055cd4958d6, 0x18a18bd0be954bbff600c7c1403276e7635ed1cd34473d3d086bc2e62775af5eae61d9aac8398341fc07277f183c17d5));
  (false, (0x31ae02e34d7d21957899dbef96a7955cf8a3345e89477c101ffc8c27a2046327376e250e6882416d7bc0be138e4eeb2, 0x1900bee131450e7d7a914ea489fb49e1a36591a6b189f964d0a0095db108dfd24e92848f148232d34a8da37b7adc99a7));
  (false, (0x141accc8970ace156fe95a366883383b5a445ca79fc407ee3f3bd12ca9ef48ef6199a7f46231a3597b09b6d5fda5c712, 0x18b35a8fd65ba4cbd734a0eea368fc9a21efabd91ace37d98ff3e0c3028ea8f24ee6fb30e0c805067330b20430c585c8));
  (false, (0xaaafef3c4298542248b3a58135c684f9ac0e0a34315e044a7d66db543d3c6a626f79dea7ee6a5f3ce669de80b52ba42, 0x13d96385b510deff2f4d1d32ee0060a937926e9b6d6adb90abac56946f0699334fa765e60e0b267ea1f8e8dc2b83d62e));
  (false, (0xfc955cb99bde258d876019716b9fdec9340c8f3aefa561ca412df73ae5febbec296a5fb95db0469c00d953ee476c048, 0x8fd02881a5331dfb0922a3b31368cfad1bcb8ef19b9d382fb88180286d20648b40806c083c7d7a804031b10c844d0cb));
  (false, (0x5b8f08ef767ca4cf5f36622b89e509fc5decaef9cb221f15b64b681867d0f5505b9f13931f476324f857ca9daa71d3f, 0xa3b4aea7c32a8fc4d9a662b03710c6daa7cac50a8ca6de8554f99004f5b1f2a21b026098f44b24a23750c8f0fa6270d));
  (false, (0x9a64184b516425353d3342b7f1e2595a7bf3cb9644dc3a23ae401e3a2c43950dd3e14a5813cf8d46ec722731cb2e790, 0xaf426e78303a8cf5a43520e362a12402d4cd3c50c5a5bc14b9c5ee3da9ae172d5612c391be4ad4c913b7f23ef8afc45));
  (false, (0xdd9144f8c45e6091a6714d772bf4739ae7b1a8652c823a2aca6cfb5457ca1adc99138fe3c31209a4897e0f66a542078, 0xda6ef8b0ede3a09d1a5c00b21acf101ca7ff6cd9129e67a30ff4bdf679bd4a2b87fa34cc8942e9d5abaeec4938f2308));
  (false, (0xea4a92fd6a7fada6c37e836f596f65d4b4a37bb57a0834973113079387e96d6d637efa84423b0a3a6bf47efd924c3dd, 0x5b7be247f2850b9608773bab9b9db45ba9d0959b3bd8de5770a36eaa83f3dcc1d95b34760a0823f91354f28328297ee));
  (true, (0x1142615b871d4c4963ef8ed842f9a579c71af04bbc4b9297c161b22f8b6c5a58a8fb3af7ec52a6b7026c9e97f3d6b0f8, 0x78e5e678d7c7e2754875c536346f6c41cfb8f5fdb95af2c9163b27340c90d31ae05f3aaa202c3156a09893b72234b5e));
  (false, (0xa0bad126c265d46d51689b72d7dd2e4d3d0945ac3d9cb888b9250b2bed82359a757e1269c4a4d3c7bb2576aeac0337b, 0x133a4335f59c0259f1a3ff195a51b1c4671888accdca74afa50259b7484098611c2cb9fdf65a98dff64d2a0fc947454f));
  (false, (0xfb69c6a2cbfc9dfb9b0142745ea7f0421cb2dd4e5b4ed7b1142cd575c788d8d19a24ba9dd3830612c58d544327ca0f0, 0x10635d3a601f92ab21801ab8e85be88d689d67e6e9835268f7cee1313a095fe9e31b7072875ab3c75d3a4e43d10b2503));
  (false, (0x28a36f542a28f6997a811fc2ce6cbed2508c5d828082677745110cbba12e028cd54150ccc1f58585e1d7b5bd45c4c1f, 0xac2c40f46751f043fe2833bd583e9bfd967becef21bf75f65d407bf06f076619981fe2e541d567dcc7fbea97520cd94));
  (false, (0x125e8f976f7536a2e85ea3cfefd8d2d0063990aea5570748e35370c03766b0439ba9bc0cf8c9e8b4405badfa94226735, 0xc0299d504b8b7bb5ff23b7fce15918bb8dbd901b96858640d5946aef2f36a4cb42aee9b8f2d3d1bd687824c71ce27fa));
  (false, (0x182115eb42220d34f08e487de33ed175b6d1a029dda7c9aa05a1ef8d1d2c315dd8bc62125863cf017f4f31c0054a3612, 0xfc2db9cb25d08faf7c8327f5daebc21a409de8913242d73b8d9e10bc6022a0994e39a0b90bfad204b39a3cbcac7b4));
  (false, (0x159ff2806d40ff15099d52045de59d8956f5a84da299063ef6c216059e7a2a6b1a09d23cd53473f5ac7b5e99de412ea4, 0x69a7d5ac5a38cce584e0b0f05b60b25f325eb68e4cbd45d0014e4ca22ebdbc559a20177fdccb0d7c9716c23df3ced8f));
  (false, (0x142182d337d4bdd0a9dc0152289c80bcf75761bc030bda9dcfd112580006deba5077fd8a5edf9450f71e9104f1c374e9, 0x113f465ca312058e0cd541d6b90435a9e7260873c34a0cd455f40359611c687f96c91dbee3f1affdcbbd3809a6881f8e));
  (false, (0x10933118bcf1940615957a6c1c7bca0054ff60c0db1566767322d2c5cd33e33d6fd2e0ca2639eca99f5b1f6e6d095faa, 0x14ef91f0b47d2bf1313ba159c090bf9a071c2af83528b3613d49af8c8914a7628366761443e0d74cf14359d83cc60326));
  (false, (0x5cf357e8473bba00386d2380ef2bbb3e118498031e2471fae5017af4c09ed67c5c2e5257a3deb7872768f839060087e, 0x82938f41814229b1224b32b425aed5972aa5f4b4d21ffc7a3913baa2c3f8f7499ac76a63b373a0d0a649113f5c7b2fe));
  (false, (0x13847679c97ef8978b3f64c9ba622ef466154b88c6206dc00a65c7c83d9e863106be2e6e6acbdd11b2e3bf3c4e9a8fc7, 0x5c65be3c6a8b37e95aaa4725d46595304e94133e1524dc41b86d1ea5e2cb0e5656952930a29270a27fe8eff7ff52747));
  (false, (0x78af2f8549231aa92bba1b374d54bf4748e38d3b2c782b3c9d8a7b7d87389e25b856b97ee48f089c7a4594a201092eb, 0x157a7e87571314c4eeffcc641151b627d67176b268c6b18bf425406455688e07fe496eb261acc46ca422be84be4fee75));
  (false, (0x8f022244af0b719146e8cfb7409e84a31ef57e217e3d45daa059fc26f53a4b15d861e5d1b9ff207335fcb7b28f48654, 0x72c117c18b8dfa89321c27cec88b9f86c99799b380ebac98fde2d5c9ef41c16128658961fa9d79eb0320e586c2d096a));
  (false, (0x86675ec3781ecc255b9b8f657bd72dc32622552c01c3a14efa70797ab04d5777f18cae0d8934218abbe5eda42e0374, 0x99b7b955ea60c02306dd0199067fb6cb2810aa19e5e838d4d7d18f24dc5139d8829c6be0db3cdd784259d6f00a05188));
  (false, (0xf16056dd2e8b5f8240d4ac75aac0cfc9b43343826136afbd4f0931c31459109811008d17464425eeb75a1d3a3486fba, 0x134957b7abe963c5d074abc911c5cbb3ae17332e06f5b415438805278ea9e18b001cf7daee0993ef125a22747400b5ea));
  (false, (0x2d6c8112234d7f18ea478ea7df5eabb84672fab4d4a6e1014e0585cd696c72e9adb4736ed72eccb4e30eeaf3b992446, 0x444323d14c7a3549b9f6b2738ce286aeea4511ddcb23d59ff0488c63a739029f85aec2295586dac212579b39f39df97));
  (false, (0x65fb0c0d47de8795557bd2f9f4eb741ac78b510ccf452abbc66726ddee31b37d058d7e5bdda2d3c31051f4071ae2945, 0x7f9fda3fa03c5295720441d73a813ffff40ee810a12214b0d4ee64da91ea67b8a4525b4b9c37518dd4a05df7a4d6dc1))].
(** the value of the Miller loop, its inverse, and the pairing *)
Definition loop_d : t12 := Eval vm_compute in lit12d
  [(0x18f398fa8a2dde9d7c3db8084db72057169279e150bdd57ced686d227128ccec4f559bd720fdeea56d026e9e304569a1, 0x18e09e02d23760aef6993f5332749652632bfe919908f86ba4dee6774e621a05b92ba12ad733612c38fd442d5231c6c8); (0x852c4434538062ee574275b2774576426779a7560e11dafbff37381298939024dc34953deda691557a2d2850032e893, 0xbe1467015569d98702fb06ac290f76e214c4b88b9b4e0d7d7525d718b8020f2abe34a17782e320ee623059452370a67); (0x6b41a526a25cb1643061f36c82f9b502cfd9ffd68f5724e141772b356790f99f57ea0593533a8296b3cc3a2fb64bc2f, 0x117308d71089929dfe140fc8cb2df2f3911bbdd4df8fb6447b5c3c31a6ac2d8c1bbb2119315d434b6d6ab1d22a570ff0); (0x198a509277b5c78f618b800c2eb150ee965990b1154f5d3d8a7d3e71db693c0941458f85dd308e6adbe1571b53594680, 0xd64dfbb01c48fc9dcfbdb92cefa03bf606445444e43d7b1f9ec997833d8fc4f5cb93575a4c545a76bca15961cf57c87); (0x84c9653d7cf1100a5d1f9fc1b57e406393cf9759df206795064c3553aa1e7eba97306f212189c9662cdee318055a43b, 0x6bb91e03749bbec8d75894163cb31b4c45be91b81de960593b97c409032e2a84e9249406ea9af0b11bd27233fbd2588); (0x19005ac85eb9da1906d38c04729c4ecda6552934d86f716cdb505f6ccfcc64da32d67bc002994d71907dec533b54f051, 0x1063da28bfdbc92b657341adb7697c91771a2684771859501387626afd81d38b805f71058d0b9e4b00e72bddf172f640)].
Definition loop_inv_d : t12 := Eval vm_compute in lit12d
  [(0xc7ca33e604e934e79504d7dc4d3a1d8c0e138eb8392f526f49bc3f83be19d69f0315cc32eea95f45490a455ec1951c4, 0x11ab27fed591900a7e4f8a296fb8fa0a1022d2e826a545172152b046e8d13f55f4e390825e512650893d21aea5dffaf4); (0xfbf9d39bfc3cfa4a2949fa95d417dfc3115d01cc45925d4c51910949515660fb55803182f38047321802a4c67a27838, 0xd5f285c667c2601f2a103d6e45be140fedb031e002e2a64ee3dbcb65a4b6e5d1811d51763339282663b372729471234); (0xabcca54cb55728c027d95c9c033580ecece6a0f1e3a1ba086cbe74dc80befed3f0aee4fa31ea6ec8794c9c99bed017f, 0x7f2b4b3f81ca77cb8e9bc132f4cd3bed79b3d335e0e724a5eb2ef52a72178c6c55d3c45051ef268fa18fc37523d1624); (0x1316383e30f7f4cbacf715d39ad32ac25d9d2dc222d9d5c58d2d29c5969cd49c220e190c0d8837d4dac7b06842645027, 0x24b76cf12d2f331c0871261edb0edb7b1e62f78af31c785f10437090429f5e2f6edb29d82ba0a6b0f5f6d05e04bd41a); (0xf399dd5187987317d1e83f3954f9e343438d7f2e2814b416a2617a58f4b921654c091d0484d0f8aa3fea4d12b22689b, 0x142b4179d1582aa5c0e72ec637506e8ced8aa7bc3592dc6a09647b869ff1588bc498eb59aa37e56ed4e5876024514c42); (0x912149cad112dde9a8db547139245ce5321c581b561ffa4441733fbaeb14be2438da34dba2492810d339520a0ecfb67, 0xb62d9594f651bb831b07e4dd3fe015edc717ee7d9be951164220e0cf8e79b3e0287a23ddf551870c8ee50602b3ee869)].
Definition value_d : t12 := Eval vm_compute in lit12d
  [(0x1250ebd871fc0a92a7b2d83168d0d727272d441befa15c503dd8e90ce98db3e7b6d194f60839c508a84305aaca1789b6, 0x89a1c5b46e5110b86750ec6a532348868a84045483c92b7af5af689452eafabf1a8943e50439f1d59882a98eaa0170f); (0x1368bb445c7c2d209703f239689ce34c0378a68e72a6b3b216da0e22a5031b54ddff57309396b38c881c4c849ec23e87, 0x193502b86edb8857c273fa075a50512937e0794e1e65a7617c90d8bd66065b1fffe51d7a579973b1315021ec3c19934f); (0x1b2f522473d171391125ba84dc4007cfbf2f8da752f7c74185203fcca589ac719c34dffbbaad8431dad1c1fb597aaa5, 0x18107154f25a764bd3c79937a45b84546da634b8f6be14a8061e55cceba478b23f7dacaa35c8ca78beae9624045b4b6); (0x19f26337d205fb469cd6bd15c3d5a04dc88784fbb3d0b2dbdea54d43b2b73f2cbb12d58386a8703e0f948226e47ee89d, 0x6fba23eb7c5af0d9f80940ca771b6ffd5857baaf222eb95a7d2809d61bfe02e1bfd1b68ff02f0b8102ae1c2d5d5ab1a); (0x11b8b424cd48bf38fcef68083b0b0ec5c81a93b330ee1a677d0d15ff7b984e8978ef48881e32fac91b93b47333e2ba57, 0x3350f55a7aefcd3c31b4fcb6ce5771cc6a0e9786ab5973320c806ad360829107ba810c5a09ffdd9be2291a0c25a99a2); (0x4c581234d086a9902249b64728ffd21a189e87935a954051c7cdba7b3872629a4fafc05066245cb9108f0242d0fe3ef, 0xf41e58663bf08cf068672cbd01a7ec73baca4d72ca93544deff686bfd6df543d48eaa24afe47e1efde449383b676631)].

(** ** the loop *)
Definition line_d (f : t12) (m x y : t2) : t12 := mul_line one_d f (mul21 (sub2 y (mul2 m x)) nk_d) (mul21 m nkx_d).
Fixpoint run_d (l : list (bool * t2)) (x y : t2) (f : t12) : option t12 :=
  match l with
  | [] => Some f
  | (b, m) :: l =>
    if b then
      if same2 qx_d x then None else
      if same2 (mul2 m (sub2 qx_d x)) (sub2 qy_d y) then
        let x' := sub2 (sub2 (sqr2 m) x) qx_d in let y' := sub2 (mul2 m (sub2 x x')) y in let f' := line_d f m x y in
        if full2 x' then if full2 y' then if full12 f' then run_d l x' y' f' else None else None else None
      else None
    else
      let xx := sqr2 x in
      if same2 (mul2 m (add2 y y)) (add2 (add2 xx xx) xx) then
        let x' := sub2 (sub2 (sqr2 m) x) x in let y' := sub2 (mul2 m (sub2 x x')) y in let f' := line_d (sqr12 f) m x y in
        if full2 x' then if full2 y' then if full12 f' then run_d l x' y' f' else None else None else None
      else None
  end.
Definition one12_d : t12 := let z := T2 Digits.E Digits.E in T12 (T6 (one2 one_d) z z) (T6 z z z).
Definition is_loop (o : option t12) : bool := match o with Some f => same12 f loop_d | None => false end.
(** ** the final exponentiation *)
Definition keep (x : t12) (k : t12 -> bool) : bool := if full12 x then k x else false.
(** the bits of the parameter after the first one *)
Fixpoint pow_d (bs : list bool) (a x : t12) (k : t12 -> bool) : bool :=
  match bs with
  | [] => k (conj12 x)
  | b :: bs => let y := csq12 x in if full12 y then if b then let z := mul12 y a in if full12 z then pow_d bs a z k else false else pow_d bs a y k else false
  end.
Definition x_bits : list bool := Eval vm_compute in tl (bits64 BLS_X).
Definition expx (a : t12) (k : t12 -> bool) : bool := pow_d x_bits a a k.
Definition frob_d (a : t12) : t12 := frob12 gamma_d gamma2_d gamma4_d a.
Definition final_check (l i v : t12) : bool :=
  if same12 (mul12 l i) one12_d then
    keep (mul12 (conj12 l) i) (fun t =>
    keep (mul12 (frob_d (frob_d t)) t) (fun g =>
    expx g (fun gu => keep (mul12 gu (conj12 g)) (fun a =>
    expx a (fun au => keep (mul12 au (conj12 a)) (fun b =>
    expx b (fun bu => keep (mul12 bu (frob_d b)) (fun c =>
    expx c (fun cu => expx cu (fun cuu => keep (mul12 (mul12 cuu (frob_d (frob_d c))) (conj12 c)) (fun d =>
    same12 (mul12 (mul12 (csq12 g) g) v) (conj12 d)))))))))))) 
  else false.
Lemma loop_checked : is_loop (run_d steps_d qx_d qy_d one12_d) = true.
Proof. vm_cast_no_check (eq_refl true). Qed.
Lemma final_checked : final_check loop_d loop_inv_d value_d = true.
Proof. vm_cast_no_check (eq_refl true). Qed.
