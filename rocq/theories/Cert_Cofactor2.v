(** * Cert_Cofactor2: points of the orders dividing the cofactor of the second group of BLS12-381,
    with chains of doublings and additions; produced by a script, checked in Proof_Cofactor2 *)
From Coq Require Import ZArith List.
From Verif Require Import Proof_Chain2.
Import ListNotations.
Local Open Scope Z_scope.

(** a point W of order p448, its multiples by X, X^2 and 2, and their images under psi *)
Definition tW : Z * Z * Z * Z :=
  (0x90d70d2a85c06c3d430b936b9560d0b2e42826908fb6250d2a6707bcbf9cfbf89028fe48ae168e0008d4fcdd647f05f, 0xa023bd5345fe732add0011873e090b786bcbe6ceda25b68d6e5a5e321f8c451f5b54948f4e1ced53a03e26102ecbeb5, 0xeac6694889fdf1fc290bc63a5519f13187ae7586853fd5958c9be8b4821e432645aef17d186cff022675917e7279c35, 0x642f5bb4047a4c360388c61cc50229a61c414031f4f583e15d7c0758ef3182054008e249c8872b407bde73e4a0e5195).
Definition chain_V : list step2 := [
  Dbl2 0x4ce8809320ae7e43252d429d0e8e4a9d41a627b53399998d95f02a7c1ba07530613515346c2cdf51725aa6cec94c319 0x18e9a5574dfc1e3df6f54a281f1aec40ad22a085d0592009751ec92f9b4eddbf7c7d29133b2ead200d36cfbbae5fe7b8 (-0x47857147252c9e733c3f86950d3fdcad565ef11e06db9db03824d45a51ecf608b1505ebb4a8b05948e1a440a8b8950a) 0x986503e2694776cf2a29ac834531ad47c68c6c2da42eeab5826c0f0309c61c7b6448922a35f414b406be9b6385320d8 0x16fa7de38302e1dd0d8b87185007bbe9ddf852bd550d2333e996878fec65bbd883472dbddb079b4d34014c2ff52512f1 (-0x935c314b68badec545ff4478bd4eb3c16d67edf74aa195b238bcdfcaf49d323dae5fb99ad5c5006f0063d75f9e044d8) 0x1591c9441079734ca2cde76a7d116b1832c77de86f926f3fa117f109b661a1612de5f6b95b9fe8a3d43140d7f5ea15 0x746c19313e80a6e1f6429b69a6174986ccc05610144bb5d29ab24991455689837a6b99636e78e0cdb18aafc0ad39b1e;
  Add2 0xec298b93c16a1fadc5949425857c451b01b5e1137eb98a0404f22ac68a4edf01ba6fc51b2b52179b88e76c9542e9550 0x104b9a00d198858624cffa619bd9feac85ef020bd9da6ce3e63f474e511ab60f3e410de65eaa2b0b34e4016d819f3f3e (-0x3555ac03c00c8c63dd2e9cac5ab1f9394f35503b9cb7e3e203e5e895ebd41dbde3af7d1670383b38f742e5d887b16ac) (-0x55a4b6a567bff4a2717670b56af167b8d5c96477be5fdb3ecd509b31d92a8c9dfc911c7847828c91304b9a00d1c1331) 0x1d55884282313eeb89b872cb4b78f797d728851c86b850bf3084a7bed2e1d262329ef3c72f18e0467bd4bcba5b7f0b1 (-0x127fa8256a6bf189dc1a568eaf09040415876c2209ecb036f33918840f9630805da267a3f7c8bd21c1f1c7971e32e5ba) (-0x3188056e526f1440c0b8e8fa2e30074e434426dc0652d33d563048dae7551beebe1733702826977e78a852d82017d25) 0x8877f5308919b088ca02f61e18b95377f6aefcc755da57e5686b857dbe6e7fe93c6fa8b3d045ca773d4348cc63b97b9;
  Dbl2 0xe19d848e4abf3a16ebe0826d79f40dc3ff63f3d604af055d407d4b91eca906834cf014da70ffa0b7f3ea6b711129ecc 0x5d6b76fba1202a4dcca0b98e254f2fb0972565507a6956eafb0fc32fb58f29a154a7a17560876e1fd4183e15aeae81a 0x11f80babafe4ec2136d436927a84e5edf2e9e33bc8ac4cf70a9b6d743d7609f55ba3ff5eccd9713502e44a8c032f8fe1 (-0x5238120edddfcf2b693ea7a2c53307474b37cfaec94162bbcc2df433cbacd8eaa2a2478e247072d47049cc0da2c605e4) (-0x655dae29f11e30883e08774b45b37426efeefa91077668cc0bb2004acee7065775d151bc664e98e7700ce4e17eae337) (-0x6550abd48195a4544693fbe9871562fa87ade1c38815886f50628b581cdefc76e3e7ef37937da2ab09c6b8bbf9856b1) (-0x6b3258d862ac926eaeaac9d3a3fff9a1cc82e2b3a949daafef3d8329cb8abc259499f5a57f358bf30d986816f1e4c18) (-0x96360eb43d3c810443e6b8bded9543efd41ac772434edefec1e3ff40ea70dcc14ae0d26d034fbb5c3371f72dcee40e5);
  Dbl2 0x4b5b594a77cd9a62024340f169b7c8619925a269d8e77e1badefa9e41201dfe025aa6514b63c1a6a1bde3cfc9bde468 0x76e702f3b969e4243f80206e39eda867e8448a1dd4693c84982c0e3f5e4953f96b466de76b4e6a4b2fc7945bf7e7dd9 0x47d13c9152b9c136d4af16a5d17fc9fbdef296254f3e30bcb2554df6dd58a767ac18fc62a080a01a59794a1144c2778 0xcada303c8e7799759e9d5c3ae5521298688ed64b7467df2397d59af2b1d4208622b982e28752c82db4f26e6b89b4fc6 0x1454c782d48e9d78beabf20fd6a81ddf6280092b6703271970f75ba935e998d172ec4c9978035edf462b17a89748dcb (-0x2b120d43ce9338273d9b0134db47037e884969551192670da3ea7cead7e50799782fb139094cf2d0eed57b557f4db3b) 0x19b9312a5438ddae78776f7ca783ef03e58ac9381b1d9513b328098c6c9e65eaaffe2a5a1971692ef4cc60981e1eb54 0x3effc2cafe8576a95b717e48fb5aa22fbdb778c3ed8ff211eef2a7467481adc64a48a83b692946fc9122f201af4c79f;
  Add2 0x142f1042e14e43c79351d5a0a06b8ddfd58933ccd59cdc27741c4f73f6dc4814f34981ca8c7ef7284c74a8a43eabc030 0x11c488e504ff484cf770fb73912bafa381c3582ce29e192444e36780b4eedd7d36ea38bd5f77aa3af067d7bd9a11e35 (-0x625cbf5180cc3fbb74bb48588f5ad02741650184d925cf9a2fb18c9efbc105fda5200406a5f137b75c2c3d9750144c9) (-0x26068873e4beed26e813b64a342da9e1727f14313c7614ceb480d0ee76a265fe4cc792964cced06d2a5eeb93f46885a) (-0xf9e6a3c6b0c05b6949e7c46b782c05442f015a80b813fce2ac6b0fae2996f3aaab0555bb4012399cdd60077ebb4242f) (-0x1b94ef4359c3029898d73c4887a5d4d6d8e5e27741be8d6ff9b8276f1abd23e4b78557bc5cc4cc5e4e14c304dada048) (-0x6ff76284c4515ae55966e280424ee406883141ea809694ca594b8aed1482addd1bd1db5759ef00c08ef02bcb0b042db) (-0x624300736bd6635d9a9b709a521f60dff6328bc9acf1acc975838bec76a1f3a7aa6f322b12a85de7ab4505f9cf1807e);
  Dbl2 0x11ed58425bdc0b4af102954930a1695a6b7f499086be7ede6787d8903cb7f543f2fc202ceb4768abebb1de35ad926a5e 0x15feddbf78c41a312f4d75db15ee75010d01c82f0c9be13ed8cc8475215a5ea506de58dcc949db9125741b2a41a8e669 0xe1e925ba11103e833c187a7a9d64c46cd6b572a7d1f54f07cf7143fae4cd79e6a13908471851533fb99fc42813872c5 0xf9b4c3c0dfdfd9de5c7e38175fd009566ed824f057cbf0af6d855f55b51955c8736bd3a776f35940a7aff9f20681c24 0x63efcb0d7a01f04bdf4adce0c47613ffc790348b7bc958fed9cec90bee67c25b066f76e122c975ffaa1b7465ea89fa5 (-0x1e53c5991e9cc9be1f5ed5ab544dc143881f4c10e191d5fffe51d4d637376fa5f4914b14ed044e20460628e91e38cd0d) (-0x87937f8fead8a3a9a523e590df56185bee3421563f21a3ca6e50ac6b4dee32c94887c43f2e39fbc5525dfb8193ec59e) 0x3ab3d672d10a89af4bc076587cede3a9d3dfffa8434bb3c3e5c4a239eac8378ce966414d47a2dde4bb8cf3970c13e64;
  Dbl2 0x16c4fa9d50462800d0e776818e8ada90d8c75d6e79d569c7273504c8f5ba848bfdf69a65d689c7bb25fc4063cb7e06b2 0xc27319548752f5cb20efc1eb526d57ce3a5795654aed40e613eb418a516b27d848f9bf892a181fa323f2c9b098acfd9 0x391d5a8fe38c050bb9d1fb4882ebc82c9ee57fa2adad9a7f381cd77f429ef4a3dd680934821cf2c9239379e4e9591d31 0x642b5e97ee176f154ad7b676d6568679059a3751b99b6efb39606761d8677e45294056659b9a44b7f1faca1e6b16ad6 (-0xe41dfdbbb20bb9c30877ddd835b8485a262916bdf117ab7fc5595b8947a75f5eece034227fd4f493768e5f0536dc3c3) (-0x15485e21b3e1877fbdc117d7ffc2018039d28824b722711c8b6246c913c7a720bbc32d25b3cd7e32956ed081d99bfe1a) 0x19e23253989e437f65e4d0f0ef35e5d0e77a9d02bf43b2209b6fe70d08cec0946df567ce7fe4f6a076b205e9b766a4c 0xccb9a4479c3e5d7c9529ccd302c6392c96217fa1ef30c233475583f7c383e8f74ede8bc7c5dae383a106daaac0bf619;
  Dbl2 0x114933066e1eada9873344414dcc1474f20c3336b5fcf9d36e33c3745ec3215b4e12516474a29f1259d97609f430b6bc 0x1d707b8c7226614a49ff0b02f298482c0d49bcd968e83b35ba6cecba80ac05697eef27e46f3e5df6cd2455e50eb7aae 0x3b6a1f5430a4d926c6bb0f1970b9ba1552534801453c969a91a0738db4f2791d2976da580c5286dea1dc627db80c9298 (-0x3c89c134af1aeb69bbd38461940948ac203ef00dc7a72c2ef12ff98b6bd0485987c589541319bff7ff641beb709e2610) (-0xb5c43af33950f16e604a9aa45ac5d2e0c01ad7f3f6e9b060174cb8000f2a5f1814c0cb7d059a7ac677a1c8662edffaf) (-0x27238df30df8a54b7d4567aecf9c0ee1f35d029f56f6329d72cb4ed9998c109a86a056bee92fbfdc309e65f7ab3ee7b) 0x83d916967b9c471dff94613a6c689fa7e18761123a0bc15d2094be62dd4e51bd8593581f6dff40add6edf30be4a9 (-0xd818ffcc58475c070b089f2695788808c82de0ad545b58e3b72a6c1d5815f1045cc8f5e83936981837117afdb3acd8d);
  Add2 0x128453b4269dffcdd7e1b20d54bcda161bc7a67a9b6e6150e2684194a460cc5fdc1d824f67c99920515720b8084189a2 0x65ab09751dd1fa8020dcd1758e1f9a7d6092dd8ef6fe5c43b577a876a4f8ed5c21b33b62c3ef3ef4c48ac21ea5bce12 (-0x2b74744fdbf70e8b73283cb601bddd8c61500057b1cc52e215dc85378bd4ef385e347eae935c55df3b508629725168a) 0x3efd87115a393fa46bb5b331e4aac63d6290a5266f0fda1fbd84409b60656510e1b30889f4e703b4ca659f649ee9fa3 (-0xba1f94b58c41c668bf988cc160a26630ff6cabdabcaf619c84a72ede2c2e25739ec667016a793574da29c98e9c63100) (-0x90ca5b4e493f9153b88435f4d481accd2134a276a8be071b1a05cb248a4fadc3fa0140066cbe51841249fa50a42eb3d) 0xa53463ab145c760922a13ecf99719918e4f5b3f7432eb0d66544108ad3af19e1897e3ed472bcbb69f4aa7e7701e89e6 0x3d2972ed1ce3442161d57e64eb4b944afe2059404a9e1e984d19c8ef7fd7a46d4d08ba544a1854d6d6ea4513421ad5e;
  Dbl2 0x89d89bbdd480d0c807e68da3899ee9ccd4652e0eff4c7303955c1748ff68eb6f5922b7b9d75dd532081dd2496ce5b9f 0x1c62ab1412a7ba31056335552786ee747147d8a2356c6bb870a215a0356a64c974c84b70461c8c6d49c1d10542e3b2f (-0x4722b183a78f47ece6f6a895d2d7fcf6046fd88874f021caca411a02bc5206588c01ad6ea1388b8a37db58704f69df2d) (-0xe1582d970f2e0a43df66fcb4b16cdc6c2c33771bb213cbfdfe58b47da3ea344cfb8c5ecd1de5ed599fca22927d34bbe) (-0x2bbba11f53e9ed5e7edc76800609864b27b1b124ad2bd23be105180315b2b181781549b8cadf83a32ef63afd7af3865) (-0x12cf0152b3d1016edde368c01e641dde1af2ca624bf61f5c147201946b6064bd7bcd09dae47a889739fc8b56bae8cf9) (-0x641cfa4b8b670d8988222c3a17acccd14fe1bddfd2506735406c44a135ce0bfc240cd80eb3c00a2c585dfae0e90bd94) 0x139669f745e132e0552dc10bb13ad7f8442456a4d869396818eb21c634d15c25d9df987b6482e0bf1b8667e69b42813;
  Dbl2 0x199f20a412a84c8e2eee41943f0d6808c4a88067bef50826b5eaa5b5ac7ef746017e9e67136576a05fc7dacd30301571 0x9667f96f9b5f4e96f0aa6df770eedf0c0bbcb17a674d6f930ae2ae7e2a4213b1fd1ce257fde85fc9f1167f31d917773 0x2ef88cb48d2648e2f17763f5811a1e6c5bd6f5f90aa4795c8174278fbec40cc0c607b8d6c7a3b5c6bc4d36f1212029c0 0x10102ba0143635b8dfd4010ca65035f858ec8da3d9bdef515b2794fcd7ee4a3b873c26e2c9190e8e620f846120e7a476 (-0x15d8b044f8384b4ab0827eb9bdbb55b9bdad112db159b80581c002777807c1f8aaccc8ab0fb8b5482e3357412481283b) (-0x12862f7249c843718cf1bd7d81a3b5f009a7553a4d83ced072ea76812d0285be8132be58000db8b038afb68594ff7d74) 0x12145d65953b0e55745c748616af74a732ecc9998779ad57c55135bb4a4aa00de78d68b0dcbd6aed4e99c7b12e0306af (-0x11ee8310d9bd8a8d0e7086f74413fb5375cb8f988d6e4ad1ac46ceee978d2ea5147a5c58bfbf6380a97344bcba07b1e);
  Dbl2 0x15e3c781e981499bc242a8b4c7b0005f2c185ebf0052ca6b67da5d5fc7b73d037e68c41d7f67d2ab61394538563109ff 0x152b202ad6ed7f9b399eb2dc7876361522563de9e01441ef9163cbdc6f2c47b93487d60a9f2b99487a8694f70f8428c8 (-0x3790835ead2aea176e0b25b58a4afa9f86c3755bbb6c1ea4e42cbae936106f661b154bd2f279e489542af7bdb716f281) (-0x107f1e1ffa1792859a7b01d352cb43b3ca3670706781841eab6fc8b166a39ab3e79d8c5e79f288ee5ed87569d9020d56) (-0x131c0cc28c5268caefeebb951c903bf940f7184ab9ca7ce83183dc684cee36e825d7e2806f111fed349de5bcef98ae1) (-0x23a3689121e7488c544087d1909671b702aee57269662a71fdd7ff2885b9e212ced47746a2343941dfcc8b764fe80705) (-0x128e3c61f4af7d5f2225475732081e87e2f624642fbef0abb29faebd4617298bb72ae6315f5eaa36455c20328fdf9407) (-0x447c25f11947116969e4a85236c49b917177f22eb7eecd918ed3083e1c4570a91c766cab16b61323327d5e586231684);
  Dbl2 0x162e96cda437be11d8a3762b5c21172ffacf7e831dc1a5b212ff6281ac1d908b7c961dc5ca5c02be39c40d9d64be7298 0x7b60e5e128aaf58f4e92abd4850457eda536d83bacc3c459cd7e326ed6bd58a17e6790c5877f37ff4c3c55986ba5609 0x248af067aa05cb8b32861dcdd6c7fbd044e6c99d9c23bcfe9f81341a4f3b03c555ed2e41f13c6ea021356c2e18ec2161 0xfdb48493e5bd58ecec2371bb3e6dfd8b78f72fe4ec8163075fc1b7adfcc6db878ed4259829917ae09bb0d59a6776024 (-0x10a28d388e6bdba97c1e51cace573a926cbf53393dc0948453cca0b0af33a7f341040e0fa9be623dfdd25b1ff71ceb59) (-0xd27cdd4848b708596674809f118e4e77be13af39ff5d5e27f85a235ef484ca9ec090e2909539e081907108f37715975) (-0x4bbc0a59f72f76b73c2ddf0acb3f55cda5618560bfd85ace17eec058f8a28317c6ad97c86869eb231debec8017d9b81) (-0x6c77b2d14782121699cf021c3a38f7074d0dd425054e926a40a90a64dbb74012800d8f91ebe419c1777d343b01d9c39);
  Dbl2 0x333bbc1f307ac07cd47923d0ea389ca54f2af430189bddc64745355bdf6a5e69f6be6906144c9174e9588817213cf45 0x2569cfa7ba74b452607498b7d1f5c840331005ab0dd2d22ea502bc69a7cf19e977ba6d10e5d8999ab779d2818f9c07a 0x5f79dfea0a36c33b300be3bdb29b82e69bb8eee265436c5a21bdd2d862e74a6083f952eec0e3cfced4f927da71a421b (-0x6d2aa6fe091c0f79c3fb93fd04200920bdaddc71d12488e8dec0ed94e16d89ede0dba5f69a189be441bfab66ddd4ee) (-0x2f1c90fc55a9599f87cbbd948da203c4e7d6d3f4af4f007a1ad8cf48f8ec5ecaa6309b9827ead5a974f2e246c7863f) (-0x936c5637b44b643ac43eda796f6397f956a2a284d4444c47ee470c0a6928aff3f127a561a61be4bcb1932a1529b754) 0x1fcc771484be01f8b5236e1758c4bc1a7eddc378366e1c072d65af0ac096ec3284ed03280618f1e04db3e1425515f26 0x1329027e56bbd26309aa0e6ea901980e9a0972ceba0c51c090b3281942e14e0d707b61a60778cccefd3ffaf5af037dd;
  Dbl2 0x1b26037629b13861107a53baba09dcd5525232a9ccfc1f731795a5f8c4c8b94a237347b3500d27a358f2c5b8996e854 0x5f3242c75db47fba63295f9d26efee816e3bd885c7229309c174458db5bbe7026aef55cecb4a432ccb28bfd29370c69 (-0x1f89b00477058d128201e1e9da9c6395946cd0f4e9d3f23eec38f868a842d4af0ff4071ab6e80ab1b65b78d720db1bde) (-0x186daa986da4d313f772be752337ee13a289b8f6106a16a9edfa8ec00bab648f89a66248deb2882e6aaa39031f12ed36) 0x1402704e8bc305e841fc5c9484af4bb47df4114987edbc00c12ffda2ddb75456d23a43d093e291a2f74e17911a75b4d (-0xc6c557a3b4e365bea058d1bfca1dc0f3aaf8c8bc356eeeb625056a2b0b56c60cb62b193dd3a1d88d7a063ff8788b54) (-0x3b5644d891e70056afbf4fe17abc9afae698a07daa4680994f5c313e846d39c41def8ae9b98a2e45b8fa700d0fc95e3) 0x2cabc5c7ea00bfd98527796ac3f6a3b39782dc8ac09d816b77f4f2e3abece0db3136ab02c4e10a8443f618d4c0063ec;
  Dbl2 0x1174175d8effe9eaf19069506f685149b4291398e51c345463ff00ccc53c5a8ed32a5a0e1301658ea43e283d40fe9a5b 0xead6524a8c6f47166b853cf4366fed71bd6326529a9926adb0b73e1b48518916133f6c62c94bc7eb838e0d00223e82a (-0xf61f299eaf85a2365753cc6a10a6675f15ba97f6d0c27e0f3380703efb45790966a6b495b285f7c5ed2629badb25524) (-0x6d209c26f96a6b2dc19e8925f76f1c737cf8372ca2e1ab67be8ad2bafadddf82771abea6b2b740b8f4794cb0d7275f5a) (-0x36e2328e2873457a9f502282ba8ce883f5b70766edcad7a3b3ec76bff3a3d681a018f76c364bdff8730ebfb19d072a1) (-0x13b3c69a55290b6097dcfe7de8c0df5a69ab20249da264dcc92182702cc494d0081a4e2d3df43400be9b37f0a8c0817e) (-0x3d92fa3df7f10aafe0795ae0fd2602749bbb2828bc1c3664c63b223be94b1bc32e58bfec28fc7fd6047baf1bb3c44f6) (-0xcf77a4a1f22e10b1feeafec9e5dc83ecb13dab4426bd7b3eb3a3cd38843295e36b7e1d7770d705524bf3025db626ac3);
  Dbl2 0xc590334c6f214d013de41347c147ff8726189fbb6ddfc9f6f4980c49d4a4ceda0292181fec220018f3f4ab68b86ab78 0x252249e070f4e9b64238bda68e7920c6c5a507dab3caadcf78b13c74eace5e82ae20ad33729c5b0a7dfa5d659bef5f 0x20932ebc76796a2f3add1b318f7a707dec5a33cbeb407a0ea434081f73605dbb373e340dea213a0fe88cfc695f42c3dc (-0x1c318d9f0e3fbbaf22256a69ba35f16388992640ee4adae587dbd3a6670547f40bb4047f586f8596d784e459636d9ef8) (-0x5dcc0e719e123dfeb363ed90d3e50408a3010c89ca1e61452735a0fe0074665d561e422c6df8dbb0b678ed0a0eb407b) (-0x2343d844048ade4dea2a8b7db9cacb69060a6f208566c7b797a371d737523e9c4cc518e63c3110a2d0d7b8704e6080) 0x2864016f88f3f4817ce60932bd2b27ea84917093d13cd67d5ce964bdf52d9790eff8a4beb4c531be45b3ca2f6f97412 (-0x5376934cebd43ac3414b7ec4a2fba8bbbb5d618a1cf7741193845e188049617ef89f7753cb41a5a14629f0c0b51b740);
  Dbl2 0xce1796063df7a6ee9ea3008f4bd322785d59b460fd687748747ea6407b61a04abeb269c544b8df17a6af2f060a5ccdb 0x18552378b5a1abe9e2935e55bdf107a92d28a4d99e3e4a04acc15cc781c8548c5f742eb0771354c99b9acf87b68b1e5a (-0x29debb5065b17de91ae854175f490ed62a7a5ffb198682564c2ded15a47379fd2e2ea8c12b043d71b6596c41c6829894) (-0x7c10e7fdf804fc04ad0c0d1b1b2a5caa94106d12ffa5375e85008fe159bad66cfa4a3725b5478aaffa7870b21ed34dc) 0x10635d2d9ca9fc0a9469062ec580893ed53763f41b35bb1db9f59bf1e2534c29665e86a6152c84ce649883bd9a912d60 (-0x181b0299c20a8ddebdcab3ce5b5f3e4bee4d3f74fa92f0f432b5f6bb90455e99ee39754302e24c237373afe4e585ebf1) 0x4fad1e05e6dde7eeebd372d58acabab6cfcd4304e84f74c73ca52c4a6a496e826bfb7ed15b467f2decdc323710c5fff 0x5fa0cf694831bcb180ad71f16a56050e947367e874febbbf4b6fe914ebfb654b4484b2b5c818614224f0de10fa996c5;
  Add2 0x22f32e04c35e82ac55a1f1263bcaca919796a9416d27cf8110ccef21991a587bec12fe2aaab462a8216441e8a598931 0xa6d65af901d55d219f063f76ad3b3268256ec9f90ee6dad72c2b450474bd410179525718bcfd5c8168fcfedbd36357a (-0x3e99cfa2f773b24f04b37bee67b8f67131beb93379b6779a41bda277281721f782bb7a77c0c0c3e15e229e8d8822433) (-0x57d87788eed295285ba162f94a4764efbb57f96f548029aa1b31bf0df20bfaeff5058e16e2c1efd26f8f2e4a3091e87) 0x3ff6b81fad92c85067641b4032f7f992adff8c1b318a33e0417a24ec2430dacf624a192fdd56bea0ff42aa327055ad4 (-0x1c0766eac161ec7ffebcb13d1d3b7445e2f78e155a8836acdc16b5ed2f7350da1c3803036018a6d1a628f890d4bc048) (-0x30a2de2a1363d60654a9452509983208047682879c6ed85cb4ff662840be98c48589cfd6a42f7b7d8470ddb935f549) (-0x64fb90357ffff0af292fc1c34e813023eb36dfefc65637815b882001710beaa3b31f03bbc8e99e0d1029a8cf83820b8);
  Dbl2 0x12e78bae623782fb1b67311d17ddfd1a1221e6c64d9f77eff74d2d6756f4fc249bebd0c147515f424e4eef48ecb8c404 0x142fca1723cd6898efacca983f16430d0ad406ceb7f27e24cd6f77d9eb9f56217e672be197a478dcef5b8e98ac56549a (-0x18ded37cc035fb79e452642665d72e42b24d555ee7be131337e1442a4c4889f5f2e6010411cabe93f71235f066bbd291) 0x2bb6ac9a009a52240f315ec566d7f712873eb68ef62ac2878c99300baa6f49c08a12d5767fa0eab3b48168af6c64b6c8 0x1ed6fe81e64aa35d6a355b14eee44b5b216839939d3426da28fb61a6bb31edf853b680b9d7749aaa1140c37f30550f2 (-0x1d59bdea67f0f9310ebdcf9eb0a35de7f6de9da1e2b8c214e58f9337125a979b8ae269f2d718016d54d6d3639236d953) (-0xc071586b847de269987674647dc2042e97e5d30635628165efad0bd7145d9968d7128d1f93a89e565192ecc99c7f9a3) (-0x15d846d448df1599995ac32218390ceafe32ea3dfebe8843275c8782aa95f0c3aa9c6765a1622914253804a1dbe4e06);
  Dbl2 0xb7f9f5e83ea81fbed5f81fdd7808c866f4a8a0eea9c80ecdae7e170bd8095cfded6e0a2432c4ecce4ebc0d8c343696c 0x15f7f68b3dafa76280457523b14cf2f58d184d99b27ef536c13ab074e8fda9a02e71c41543e84fb96ac602aaa4750ab1 0xe3a3fbd7276b4221a5383803ba23987bf65a751098408ce6647621aed92f924f0f2efaf8befb5e918566f263a3e328b 0x16f9fada1d6a715ed26140dc919586fc53fdcf2df0a330fa4f68d1024a6a18700b3f29db8eadabf2351e4fce7de6cfb0 0xd79929cb564dbd2a6014e8d217739591338125ba077391f41f1e40692c813059b499a869c76d58211585925e2898875 (-0x136d9b5a337686cb03004763b7a466aff498a43291e6026cf61bd540ce296a8b3645c233ea41e91202926b1c75aeb325) 0x1467549a303efe7734e26d366489da0ea374b83bd2e5898609366b43f75a1413fcaeb3eac5d469d2b98d3aa3a911613 0x8916ffde49810b94c349752ce082a5108f1b10f0acd6dcea0b5b5eaeb9650e70a4e979321e6dab5ab8ab38acf53af49;
  Dbl2 0x1655d74e02f92669584c43b6cd92085645ba3f280824892587402f18451ebeffc1b4bf2af57ba710d8931f617d601c7a 0x39f1a631c93a99db198162a2bd3ce5c2b648d1973a8b457791236a3d58c2d398df4f6a09a94ab186fcbe8d05c9c158c 0x1f933de5d5bb5d34a4f2c1a07fbfa6b1a326332d5db621164918bc69cdc92c101b3081796bed9fbb605c4d75c2d90189 (-0xcf71a242a4efee5a7c86b2d95752f8b04d7eecbe212d118f1e745575b3f84b83b7e635a75afae7ea6491d5b6460da8c) (-0x12ae02f95358adc5bcb46d8a854e9e2ff7a46ba98d4d8f430223db6d6b93bf2284c91e12b13ebd3b13b2578ef63c75c4) (-0x63899d8302cfcee51c047f5e6b660abf01e9f9cb55050804d7c2dd1e3d9e225cd108911ef5f8fb801bebdc7ed8eacd6) 0x5e19c2bb82104da165baa3f8e78b04980c9cd2f44a479feb6e15cbabef5d9c47eddb5b44c35e71dfb531ccb7dd98aca (-0x713776412c291dcbe46c2b60a27942acb27ccad4f10a4167bff2a8a364f3c06c5c95a7ac14e6d5825fa00924ebe70d4);
  Dbl2 0x917f4c780c1c5b7bc6331d27e09ebdc0340514c617df34a0596861c1b528081be837b45e2b9383c8590c2d7f220c228 0x7da3147eff40934a23321c3fa71c0d119f38613ad8a764f96389279b80a3ed2e1bbfc20ecee0628ecdca2cfef48577a (-0xeaf64be198af7dd993e1f82470eba045357c031861d2688127f02a9042e37f67792f5e4b9c5b795fd71995c8e3af028) 0x51015a6d0e4d686f1941cddd104a9237411e65cfa2449c728e56cb7c90aefc378f5ff791d0b39bba3527a16c1f6561c (-0xcf12f0d0667a27339171dc4cc4ff0b5fa445979a75023ddc0a5ca35b90c0763ff439e7b5b7e4f4a145ba4c33266b3c) (-0x57dea73fb2aae0c676a67f1cdb2612f3c6e13df26852cae43677e8fbc936e9bbca427c7ffc972722e182bec23580b23) 0x2d4efec7ef1137afe15bb23465bc024ee8f4b7e69696e94b6c5eaf4d5e52d7e991d52aa5c21613092e65ceb48c27cff 0x3d2462ee53e737fa3f4eb7699b3e48e14019f779dbe0fdf60e5a7e1cc5fff5bbaca1fdcbc59bf5eaf7c2531279be9a7;
  Dbl2 0xca1d677a4d7cf98644b30327594b3ff95f3ca9d0c502896b2ebb9932e26731c76e034db5e685f358a4ddb0bb67e6def 0x12b4d2f52777536ba585cd9d5525ff646bc8e0b6e06713fb74b42907e938cf1dcc6d9f252559c442fcb5a270a7da5b77 (-0x35fef6c1fda1694b4fb09bc0069fef34d85493fde7c2d6c1641eb475e08b0ccb9a6d568e1b79fb2efd2796f90d83c439) 0x18d6f1b1103f8740fd0404b1a0b2d19af8920da088210b23d4d7754412e580cd4dbb845d6c231f743b9954bb3a581fa 0x751f78a1d4ff3a9bd65ff4d9c2e528ebc73e66fed6220fe93568381fb27d6c8a3a3f59e8eee1a8a3e1b66d8871d7ca8 (-0x122c94d83517c7c99841408a39580970e6cbc87fe725bb6612952d5c876b7dacd121465e346232b8d4ebac7a85ae14df) (-0x9ced57e3abd12d55e8b7ab0095ce0b7642df04021e8716d4132329fef3d03a8c19093b829c7c6550ee71f1733f8dd1d) (-0x8af72255b2eff759f0df9f0c9dec1cf20c0a72683aaf2c67ee6642b7388a26842a1a51f176b91a360b829d69bf641f0);
  Dbl2 0x7f8bd76cfe112f6000f24bbab5a2e3f7d8f3bef8af60ef1fac62de06d0e6676d6b70755ad29af43f93e2f322f4a046b 0x8d465d575e175178209bcfa5d2c9af5d5ec80bcf580ea62d72550f1542aa9204f567e5574095d7ad83b7b9b58f6cc99 (-0x3c83abbcd28753f355bb3730a5648476a982b2f326792b3d87a62341028a2ec0e9fcccaf8a97a130d6e953fb4e343af) 0x464ad59d03c3114ec514d7c60714e800bf0dac6423ac6078384f96bde0c79c897f56c8c7143f43dda54b9c39dc240fc 0x8debc6aad38d6ceac0e010872f5dcc1054aa736e1fe8b1ae453c2f0cb65392bbccdda5dda9daccd9bd5f248fc9147c (-0x569dc3a90c2a8333bb61b1cb26c1d06dfd860e643ce3d7c6645cd97ef83e382f6aa9a163d0ac503d80841e0eb6193d6) (-0x2e12002fbfa55e930715b5652e35f91abfa307dda19d4d71f0289efcb551279ada586175f35ca3276459f8e658b6fc4) (-0x2072f6a941a2c0e430f5d903b38e23621c6bfe7b462c289df02eee7eb386a0eb8533c2e24cc45c89720892af08a924);
  Dbl2 0x62973a587cd8f3b7c30523b228e9161994ca4445f1f379e6e9543b10707032dd966e8556193a71e2058f7a56053ce44 0x17d5b9146ae734bf1d5ea3fd80d952151f449d9dff9071890cffe51afec3dafdd32a004851bd6a53670fcf2ef6fd2245 (-0x620151d831be98e7533eb45530e7a0c6936b0937bfa33e04a04e53c22c3706f6ef13d239b04ca70e8887494a5e00938) 0x22ac85a0cf40e4983506400cf528de332ae347007d72a75f217aa454eb5255e08dff1a82e370d71f72df0bc839bd47e0 0x1462e9bb6d75b38092957affe740f93b03dc11a608af904ff22307f36f9a0d9d972348f6b5f50505efe4b66963dd235a (-0xb4bb6f62ef0713f85007267cf790a630c33057029d8612883e45662e92872955110224b1f114456d02394cbbe77fc74) 0xbfd7b1917c05e21df35fdfc27892972890f0e39d77ef1f0ad27daf31ed84d2f2e7083741ca8971a9ad5caee1dcf7eed 0x485cd751a5925440eab89214275d3cc3608259290f974884f23e25a90006a6b2d78a125164357642a676b1be2c558cb;
  Dbl2 0xddd6bb51b0cac28b202a8fd874d57b1dc797680f98a6a2ccbcaf86f84630c7c7e067d94e68225e43a0bb7fe7e6fea87 0x12cd5877815defc87d5150a4e9dcebb47aae29c67a6333b1e1dc743a07d13edc14c9af8c44a6d4876fe013f2a7a925db (-0x23ac62ab29db15f95d94d6f1b950f43a55898d7b01be4af796cc59b11d20dfaf08031c275844c96bc5c460386ffbe773) 0x2a82c9d8f8355c5a21fc84503eafd63f80e63d9c7fd58dd56d975388db7fd7049f27d6d97bbbfd910703d1818eba354e 0x633c595938b5d319ce7df5d5c4e60755c1531be57d8225f2ce2746e4495ee191305ea1a99c6100efb7a6e19e85d8935 (-0x140cc3e441f39c724387b0250ab02f6027b9517b020d233b3c79d56c3ab44f5d2e86b6cd2f78018b966c47ecaafff1c1) (-0xec646b2fafc24b72abcba9bbf2e19543234caa21bab9670fc75eb4a38b70f7b46c3c4c3caec5593afd24e62a5991519) 0x53e7218a42014510cd6c7ff3fad320b35b8977379e10af4d6bfcf453c7a860a7455e50542fd69313e525041e02b631e;
  Dbl2 0x6d924f29bbc423c154023482b6c09b75734e49dcf88c7fdc4440e2b384e10c4444ea1d4e48397915b626f7f83ff9c96 0x3366cf851b77c4607e6ad6cd56b7df87c40417c0277f942fc4e354bbf4048a463247f26460560a3b6bf49c79edf4f74 0x1e6c8b690e60c3e48467f347e8fdda176853c1f580edd18651e506b123ad106a39681f39b388c83016d6a34d24241b34 (-0x1f130a602649468b783d060c00cd845467bd66c754e3d6bd5cf735d39c7bbf89d2fcfbbf752c393487295256a0849f92) (-0x1681687977cc933ed293fbd823fa67e269f7e7860603208e7eaf07b523a860496ddad984c76bcfe2522642663e9ba78) (-0x1b12c3de9eb05d8b2e848d124a06307a4b3d44f8ab47bce4edc1507e98e39011e15c9573c7ca5a74ab33a9d890ff65d) 0x3b296c6329b38c3a0b5e32e965cb5524a1a6fd073361b3a72ddaa7110a56e4d6d9a435b82f2b06af5a336f8a796845d (-0xe912b758e9e1d2d21292051b569a89191753a23e9c0ab5f0c56d91ce42400fd1dce2b4ef83cbbf9873fc3d741c5ba5);
  Dbl2 0x500896bb0b4624798bf0bb6581655d56fa5d30e16ebfec139324c46af8fa9317cd073b02947e667be09eca4aee7e6ad 0x7ed0661cb6854af822f9824e17cb3badb28393f7391fa378df9191d0b45051f470a47b45ecebc40c9ffab03aabdb31c (-0x135542e1ca1275b036bfb6657fb0979dce4b94ecb80a6c5400ef611cff4f9bd4257a198477769215ced0510e78f475eb) (-0x1a4288490294bc651091ea1ccdb03a49eb59e1341bafe150e316a8ee188194953cd13aab5f242a06444b524cfa2d3a58) 0x1741c5dbad9b3e1b2957dd2d49acc17203cb2fabe4e7208b39e5a7032cea354e865136e88906f1bae172529a236b8fd (-0x30c9893446f79f48b858c4cc3cd94fb4b1566e5f1b776c87b750820fc63c23d68337a3464539f70fceffa3c9f9f6115) (-0x2895479e448188734b1eb0b45eed665094602bf5df9981646389f92882c37a2425743686ebd9efbb030ca53ad3699f1) 0x44f362f8041f260355cbca6fd034d7a0ec7757325e9b4c259ed0165a75ce13cb286fa3f18547ec251d914b5eee24891;
  Dbl2 0x8db4bc1a87b18c05ed1f8ae41b7dd6d230dee38e3d029e06d5a79d6c840bd2e099f379da6e356750a9dc339e24c2f83 0x3a70eb4fe0137806ec583a46da605896b509680e147f2fc286b500b3c1d88add8c4e2b8cfd958bd5ce91d817fc168ed (-0x38119ba82b02eda3c63289e7330692b35366f5b63f905dbb49879fcd070fcd2df224ec08eb796e0c0abde797a677a97) (-0x67811e58c9890492d154360e27fa95dee260a25445de4cc067cd6cfd2306c142d42805b34a5bafc570de503a6de3733c) (-0x280de06785d6ad5d8d7bde1e11396f35a07ff47c3280e2dd84673d408ec6c0faf68e970a156744a9c9df9cb53b33531) (-0x27ceeb4fb8407f66cead160736ce17aeb9c3f6f25412bb6178e429c603bb37d1105edc2356a80b7d9e8ea6957e5e184) (-0x5d93a21642097ab6ccfc658dfbbee5616d5a30d0c0518e434325c5dae65283a75a08e980675169ee63e690db35ea591) (-0x5715afc188d759c8a07e7175b78d0b5d886866b97365feb53b4c9098d1bcdeb4f62d8db367b3fcc5509aa5577b36f1b);
  Dbl2 0x831d6391a10e958832ee419fbc3c74dfd5ce41555778c676e309e6a8c7ebc2eda07677b09b234eb8174094b5cc8eb15 0x72b87acb1f13c2d59b16daba01ee67de4f086913be709409635d9672c26f390db823ef97dd077b04afddad56699b3a4 0x1d1ea7bdafc2bb5b154c65c1128149b6c35d989a0054a96e3223a69153cca16a62a5666144456ad53245f97bf6fe560f (-0x6f9a01a1d8864db4ac9683705164581d2a35f77bbfe893a719486bd3a025555289a6499d8355084d6949453a25c2c0c) (-0x9afc46517228bf4f4eb63d6bb203140e56191afa135f90575983ecae058d9bf119a0191b1961d5218596c8245abb7e) (-0x484dba650e3fa2c7d013528d8e71ba84c338942857025d6292fa1e03a52671297af789e73404cdfd984fbac66d78e5d) 0x17a86b0259ae3c1c5abb081a911011b37eba118a28f50e605226f2d9fec44921568fd5f3f443cd736afb3febe40110f 0x4fad6067e7686fa49d8dbdeb1fe9055c7070951909a2c7d43e67c9ef71dbb125bc01fe0a840004b7f1e937badd43713;
  Dbl2 0x18f0461813d0c111f8b24339a43db3e4ad2326631bd28a31f4d54c332bf9e3e104c839e6526656670a397b44ca01bb88 0x896125ab21712fcd94da82bee798ff42b79260409689d5d973e9246ba7f64db797687711a47a8fb7cd7b8701954bdca 0x3bf91c8873d11afaaed03e139a01050a594b4573590ccc0598b0485621a1b0e14416203817ba49df81f6312a8d4b0d30 (-0x13349d72fa02608fc4298a2cbbe0c2e87c4cbb768c1bb6ba5a65ebb8dea7d1c737ec8fe2ad2a355321d86d27c263359e) (-0x1514e23dc73706a798a78586fb6970f98d0ad87794a3a6df9b4b0a6c697d88ae79200a24e2373415a3076af4bc6db1fd) (-0x1077ff1467df81cb9891cba1cea8b2aa9bb10c3d52454e050a23db89a3f3e5683f21308df2072c8b17c6c3de46a49a23) 0xd4f28d4108916ae40b6cbc324de930a8b4f821211e0ecec4d02dc9a24f459bd4a7fbb1183d5775e77edeefc28d82617 (-0xee36a8dbdad2fca25640eb8d58c27c0c6150a66f98c07a5b01b883ccaca3c129bec2ffaf902088ca4f573c654501d10);
  Dbl2 0x69fb1266c319866408c77025b88df1597e3fb0a016c7615672c86de3440d507811f1cfbd33ed4c28576d486ab65e39c 0x83a7fe7fa2155e261df0ae420cd67a97fb98fb98926bed3e527a8551af9821ec5c6c42e595bc01ddafb80f927747103 (-0x39dcb46ece90f6580b19237021891e6cbe3b4be75e1b3c0d29ef3946eef504672be535f5c4e269cc036791859e5a3fac) (-0xdbe2681e77b498725785b1031bea8d6f7956f8a342352f50ff3ff8f80187a4649489f249ca083b6b654789611323c26) 0xeaa216d60d02b297f4d28ba119ea41499703f98d1b9fe8287f15eb55b69896315a7298cdde288c081f25f7534dc485 (-0x431231c6a1eee2737c0dd735e3a07ef082e79e2201cc8ebe0e50fb2211c838113fdd6831797f9ce115a7fb9b8eef64b) (-0x2519edf61f8c9e96ab016f5b1f54edb300caae960ccb69b4488d2e2bb56b19088e8c73243254a857a34b6ab0c2b7016) (-0x14be146e8f4001eaef05e525ce29c819a3c89221b7bb58ff8433b45a41abbce4c8bb3d9ca6d7624a9a5a160ad307d2a);
  Dbl2 0xc37f729543dfc2acffbaa2953216edbfd5fedf0301981715196204ffa32a5861dadbba3ac77c21d4d8f79c078e2b022 0x12f564719aa9fd453752c9c612147f5886f309ba37394a598747980d1d4fcc6a549e5596ad03f8ecb7a96cba08542698 (-0x2562590f18f3fc796258dc7d7b0589dfd00853516e143a25fe05d77acd0a7998bf88690b2212ebd7a35342af0bb53c87) 0xcf906baccc81d77c602c7003239e9bb2486a876e0d0a8e7dbc7c0260f3d96f124624ac06b4f64cbc9646b79ca69574c 0x814aa4e3b17562672153b75265b2a333cce62be1ea5c6095cad7f05d3ae7879ee204794d69ac07b760bf863e1ca19ab (-0x11d0f0485891bba3b245a9ac33db73be25a87d821459bf51e1922ae56bdefa1d1a2e79fcaecdee25087f40b5786b74ca) (-0x1418f005a5649fb1e72f2b6833474ca75061158aeae29bbcf61502d3f97cb15a36af7db1b9fae9a5f146627347ec691a) (-0x1780aec42da73fef200a47b9af26ccf8f831490013d1ca2d5d7a64db8638953be2fbb001eb43194fb6e37b1ab601859);
  Dbl2 0x198c5c236bca8687b84eae28a9f225c5c5c87517aee22dd26cd94a7351444777cd332deb1078cf0f7bf232efde0ac3a6 0xf17d847b7e157458fe5979ac2b6f7491e39318c82c967c359483c44b2b215923d8444f950054b4aa4f994c5c248331f 0x623f489b01f1ba5759c945562e1a5d1a37bd7c9718a54353f8358f897ebbcfb7667bb968187153efbd7726f95d91df23 0x29978d0eb8299975cd8c7f37bea103035790c86c9ea962708a59d659e3a67272095a4f857b4d4425512ef8363d880ebc (-0x105712bb71d6c73b9e38e4b75b71058ad45e023bde211eedda784a6291a9c67d9220874ca1d55ad111f85771673c6a7d) (-0x1da835b4d23593be5dfec0eb2415c7d40d7e8f7ff4e189d859a4dd788d2b02b1910153377640190dbc91234f8fbb9854) 0x21d672ee0628ac0f3ab782b76263f5cab63f9bb5935a436f7d975f0930f1306b9166b12f34953a0e02d70dbff215cd83 (-0xb2d8d65b4c2eafe2af4c9e061427ac72024fc4656f6fd37e3b92b4a4c8ba40d35560459756f3e4c27b42b9dc461bbbf);
  Dbl2 0x1139f85423e66030875a44daa4414af6d63bf2a6bd4a63bffbc9e4d6a03cde8d3a9f8ac0fbd3a0b0812d0d3d7f0608c8 0x484e3ad5fbb9e68270db2eb280c8d258830225d8c95ca89183a14415d09a3785aaf2232ca320a25aec2b6f3e38d3b20 (-0x38eedee6fa18f37be04d09c33111da1722b05eeb71d8c84965a27f960861e7a8b67f6d5a19952d1e358742b23e8e3094) 0x20100c7da22e69291892db98f0a2ebbe4d1359895ac6671c5ab74bec9e7a377940f342753a124734dae719d10e3e7240 (-0xaa05513a935bfc80b706dfc4f14181111ab3d7606a5bc3201732860ce2d96adbb97ec409e81771cc19f210b5baa26a2) (-0x5fcc2b9710d14737ff3831b784aeeef0a783bacfdb4b96ad5e4c73f8676f1a11a56e3248a312aa89f7f0621b6d85aa2) (-0x16d354769a2bf7633a0050d7e5a25f34cbcac46e56ef4ef3ae1bbcc4263f360c4059b79d17d04612d41580aeb58d116) 0x62dec02d33652186d892d117200e1a36d9fc0d6254ceeb629183dc79e8ea6aff58a1b555d7f488dbe70f03c985d4308;
  Dbl2 0x1189c7da7deb7be6ed384f2319d7622d11f8ddc56e4ea849f837e15232bbef02f1631aefba1776fe0565b24dda2cb1fa 0x31c414b54704b4d8109d5b1f0dc35d9c835c935aafd5ca5e0a07dde5f77449817549c3e3617a49092feed193c29008d (-0x2ef34bfcbbd9e18d2fe8d824a2a0df36085b56984e1c56891f8ffe509e96e6d2b887e3929cd9bb5f9e7efd5c665729f0) (-0x1aeb9e9704965b7285eb1b941cbffcb7595ad6b42d7011caf3370813f9a2be654ecaf8c7b2ea37176aa429e56176617a) (-0xb74d68d345e666174989d6f2070198a9a508116c9966bc7f98068cd6590306247304771b70e24eb9519d8aed998965e) (-0x4320c9cb51df252443b21ad8fff2666e37862fa9942b3af5e6e7ab44a9ec749aec9bbdeaddc3ba417efc612d5b8a29b) (-0x60239dd3ad3c1d647d55ed7eaa0103ee568ebb62b626a86cb38f9f41e1d3e8ee3790a214ac10e90afe96f903383aad5) 0x12fe98535fc7148d4d89d51afd8944644ea6f2162ea380c3efc6871b9bea2a13ad6d63664b31beb029036f606ee60b0;
  Dbl2 0xaee5590bc5180ba58e35d5476b449edd568449c3196e80476dca31b99a61efbdee1bf1420879082f9097c71888e538d 0x63240284bcbe5b73d4358b39fdc1861d7ad7ec64120e9eb31112ad04c0345186ad62f3386d3a01c6e846eb72683bf7b 0xb78c3b832831f5e59839f3fef15957ff9ce861a62f4e29077bf23212f951cc14b00b46ac2e7e400b413c19db0d0d68 (-0x17832a0929f5f52bbac306b1d6a7874f426a642ea1cb4d77be32b0bba436675512150f5eb0e91aac29321d94d1afcf6a) (-0x31e525bb93d29f0a8c669f5c28707975243bee154c9770aecb3b2db09131ca7568f5bd58a177e924e742bf1663e7997) (-0x53593d7c7d65d29c80195ba4c5b44e5a7bb62cf523e07d743ac0675fe8d1432ecdb26f5bddcbea83d21af4793b0b13d) (-0x12061638fdafea30e40353119a6d9b635e4c15d441db62951d7c2e397e29a59c6bb13579ba5c02e3c6519ea22f09d8e) (-0x227b678189a933a03f53b42989ab0cda72be81d56a413ecc38285252a1ff1f555fb0a20c5ef5e689acf9fc62abf9e5e);
  Dbl2 0x751cd90e8cb2cda5569fe3d7a86ac67905d7c25cc90ed99b3ade13026a48f335c37345a1b94f629ea32c8439ffd7877 0x180aa149c748ef604d1ee5ae36c532f0ace0561f6e04da725e2aa5a1aeb44edfe9502a5dd6bff1277c2bac70d48c2469 (-0x51cb3643c362aba8afe9f826408e1072a4067fabc7ff4272f531ff9dbb41747b73ba4384067ea6ddca2ab33d20c7420) 0x13eacaa0bc9c9ceb65a9a89df69246a16baef88072d652f214db4ff31d85121d4164db72f776870341e99fad007999a 0x142aae820fd3cb75b9ec9bfdcd6b87f7c7743d8d87680f64697d8b1d77321132455e3b467943e4ffb86c9574e984d275 (-0xd88c1bc444f75695ef43f4d172ff13e783c97d7c8e0ba851b7b30a55ab6a9fad38a112f0e850230e0e1caf475d7a12b) 0x70456066fb124589eb3103368c5f7b9503cb164cc8be4da2744fc6948ded31962b3bea789e348fd527a154093332d82 0x2bfe1c1d7855238c3251cdbf49e8a26ec4dd454860423053cb95b994346507c7a92fa1914f1bbb803a2d2441bc603c3;
  Dbl2 0x101b41e7c7f3c589c504c6ed05f9712f83cab5d11930c5dd01a37dd9c661e941997e3fe8db03b8f925fd5ef2cce47d18 0x9e773618c8dc1a3815283bbd2f7caf73aed4e568ae7f4a660262710898c97d4a51b268d2ce1b31b1b12db027747093d (-0xca6143b98989d7ad3d92aef5c792edca71104cd63fa212c2d9d65e39581528d1b375c9173549d7fce7db3d88e473c90) 0x17aee06a2837c94ee84d7f64ad497a199d6af89bd93ee3df078c45dfd05026fa382a3d96ea9154885a355ac65a6cdc2c (-0x634328ceb67ec92eda268bb5c9058ff6773d94c1601d67e90183c6bcfca6b2667366afa0f0fa802bd15fb65f3672181) (-0xc44d0e6499c08c1ea3f15195bea4f391bc102dea4b6b416d9ad8f96aeb57a83f513440358b30e34dae6920d02fed42c) (-0x4477a8eb89711bbd450010c00abf7cc7296d5bd359e34a772cfa64de6eda0107eccaa8a42358f339c83951d61ab5510) 0x3270093b6f0448ffae5af33f9a8f7776a88ab9abe681954712729f0ff5bc9af7864303b4738f79bf4d633c406acbfd8;
  Dbl2 0x6a03ed5d73a6c6d3869322dd76885d5d3e6d898983d0533caa9e94afd4d09f84069a679b6c0b3e61ab6a2007881d3f1 0x110523578d92a1a3a908d70b8a3688abd853db6e8c0aace360e383e119e243b6bd3e0c6d517cf4093402b1ca5305ec0a (-0xbfdf6452d9b7585fecc935321c7693c902cffb1f817e5cbea4b27ed5f04faee65f3222d87d02ee84a3b76f14cce52c) (-0x6650f5fc540005d1cd9ceb53a9b4e4a9566673be02a527ca96572113e209ada540055833ecabbf33ce7acf4e47b63ae) 0x97397f10e85efb2c968b1c00e4d979678c6f5c9f0193012d7108171d81563c35d7ff67979a43802bd7687b865717b03 (-0x8ac6dd29a7d9f545ca40df194decc45bf16313e9ade7be15e310c3145019d967abd09b5429caf64c7a49ce25e6beb87) 0x12733811c4ce71a106f3516d04f506201e66322dc59f11cc1070ab2bc975afa4ec46e99c3a3a44a614e8985c1e8d830 (-0x6b22d8c82c94495deadf08ed4a92b864912e93d6c75ebed442ce5ddd6f2c9665c1e27e1f91d40e3a8bcd1d872e6fba1);
  Dbl2 0xc2be832426d3de9adbc62d840f32aa4141188ff49c22663db53c9db68960458dfc6297f2410d51a55a814323cd32fe9 0xeffc9d1501cb94fff6b25179dc3e89cb3b142ded73ef74518f347028d13a45f3e6f6a7133f6dae3aa3df77228e931f8 0x3b87c0d095aadeb3030443f2874cce51a45fd552c5e315a3711ae48d9ec19260bb85d713b8d6db7255c3f6e95a08bb1 0x1a312fa37d18751d254a558b3d5d8020b89736ce706c75ddd50c7fa39f19186dd1a14dbdcfab54f54f2848619a9fdb9a 0x2f45a7d8ff53e7580cdb6d615636df18ece6341b66cfdf541466b3c5696cd3a9e27547bfb9b0aec6fddc70763a47cbf (-0xe0a80577340e0fc19a46068883f83f6b8cf9a659a0cd7e925516897066b8f925dc7c0a2f344d81768dd8754abc5e73e) 0x1c15cb7fd2f21a1ceeea8e79159e703f1d2b0a2b01b5c476e76e4de4cbbc1246a1a73e8ec78486b429dc4ce4a97022a 0x12a04ebc58cd910a0a6ed07de63b42604fb8508cb5f4ca398b4b470cf377c44cd2fbf344e9e389fa2840919f64f6df01;
  Dbl2 0x223f648501a1d558203e100e351fd9c59725d8c5abb3fe7c40b4f856e3462000234620bdad83cc5a84c1161ee0cc6a0 0x15da80c58fcfa369497ec7bd07123ebebe9c15e7767621097cdd119a5990eac5a8b4a6d80f9cf7ab5e3efdf41cc12b91 (-0x2461d9a2565f9e3b28d31eea8def06aea3c965616f8a5b7e0921c38867636d50f622ec73a3383b413bd953716e381072) (-0x581ec1b730d1c573e500c4b345e7164c9159ba17f053b30402af1c792ab581ab5c8c99c2528369909102aac0b0018570) 0x12306ee55162788c007f4da57a09354c478eb142c386d1621dbe6349956b09a2191f30cf5a7ed9fd1fe612aeb5d701dc (-0x398ff94f75c4bfef7d634fecb698c76fc4da9eef9755516103ed20bfeb55fc8d3548166d58d658002b8188e049877d1) 0x62d35d2cb1e65ff10f009889d453fb6ef7b58c32b18ee007059192bb055303b3fa5c33b87a500de683403bcee706f89 (-0x70ef1b23cf6c4dff465739fc6efe01b5197796eacbbf78ba8b588fa469193131cd9d42dd2d2162ef32ebb2e390becc9);
  Dbl2 0x1321dab25ec68f5cadcdc4151689184c41fb2487a96df12927945155076877af82980c9583fca52f0dcf1110ac29bdfd 0x14d6dc4287c57bc0f8744af11e3d584d24e71e494e7bcc150be57816f47d383e102242941d9cebc4e12d8558a1b15f9c (-0x1a658a0265baf5dfef0a7584a703cab6bfef07fef4385c256cde3ebd54698439e037ba16bd755d40fa3d5a48039452e0) (-0x276554393f70d55bf0420ffd1c7bd1837d3534a20740d6679e94134d404e7d3e76a2893688735e29cbf497abfeee531c) 0x29fbb143ad504de7f607e3f4a76dd9663792f9ffa2c284b0653670e840b37a8fdcd15bc62a4a5112c8f10af9f860292 (-0x1eaa1c64276354c29d38c9fa58ee7d78ce0479dafb4e267cd03dffd21815a985ca7931b47a8e9bfb61e8872b921145dc) (-0x7f8a9ae05f88151e2ea7f6de9a30d1186e4f8d665030de3a34b56fecb145a2bc5030b3f73af9d4c3b6858084e6e6bbb) (-0xd6fc6dac5171db9406a57fac0cc34094aca75c970ebb05af6770f22daef82c7e9a3d1e11a6f6872e37fa6f475ac9460);
  Dbl2 0x4f547065c9b61587b737eb5c30741ffef3c89747a89a7660090359ba6553376ea40e73db2e2a5d0a7b95b7da5e1427b 0x6c4c820ac81a392a0cdc0e1ecadde3a20feefa8cd13284119f82eab27ed81ae3fb6784c8bc24b3cfb5a381ac18dc750 (-0x88306c5233e4fb5a1ac3b6684d8cfc47612a4bf093ec796bf84b23be3f20f6f674650480bee378bfbf6cc0ea9ffe53) 0x9be0ffacc8b7d4b1ce490fb5cd73b482070f367a1aa5446c301ac4209112806396b2c04426bd70da0c5f984870149f4 0xd1055faf73c22de330f92e75087608eb84a7a6141f647e2585c760c649766f2d4c4fff9302d5f359b32fd2b42ded38 (-0x294c3f1d41d73a4cca37a3969fc506d0be02d2004491ba6d6779ff9ba853a03abb585f3c71a7c4cb7aae2e797c3ec5d) 0xd68c16cbf515ba3132f9ebf720597f70352d9f3e65f5b164e2a8007cefe5c1b69b95836f0c8ccae5c4a39837e64e98 0x72a4f7a5f3fae9539f2ce7e70a1ee547523adbaf8780c289fb9aa8728308d3a8fc8809332c7f79cc2d15411aa28da56;
  Dbl2 0x65fca374290c502e08ff40e9685456a93b324c7b5e97c543793c6960dc4935fdef918060fa6009c9367f0848b475403 0x11659d67dd0d6e883c2dfc970b4fcaa48e8a61135f40e965cd9b7a818701c4498f8b8c1a73f0b453bfee594f724d593e (-0x2e33350b42f629afd28ba78e9f7ff98a8787adcec7cf84624fe2d52682b5741b2c8093b1123576522db6d2c8f1c61722) (-0x5e475c99e2b4608febc254546be4ee96b211eabebc81e064846b4bdefb1dd18b46dfaef229af6f3d4523c709d28aea48) 0xa13815933370bb8e5581af752c58125ff23307f8d50bda372778da211aa8817b5d36c5da011ff2ae358d8f907b0db94 (-0x8875a21af5e8b9cefe7c6f7b4616896acfe11aa82f2f8779c69eddeb101f570db6ff7ff68f5560ebdd6fd1bf5014a8e) 0x252bc7408c9da378de5f048305a43c0d00c53b90b3207834ef28fd26e4607d97a7406aefb45f387519fdde311773b3d (-0x4b166b6735f875fa4f1c6d507626f296c6332da434e5b8757d4cdbef0e699a5c6e991831e62fdcb0a3ed26d0301331e);
  Dbl2 0x46878de4e1890204fb06893939df5265643a7fd99dc725ffa93113fe313f178dac9e8ce5e1e36820f59a57d93c09ba2 0x33bc92029a1f469793daa80089e55f2b587ed2db1a802a5ec970fd346b5ec3976fc32987df86966c35cbdcab8bf17a6 (-0xe6e51742856ca797ecca31bee895b282b781aea6e92d8f1b35a278a03e0cd6b057a7841546ebf5694ac119393c75f51) (-0x38f184533fea2ed9ac9830d6ecb82acd4b29a763929e7f43ea3c43edddfe456354eac77331d76ff8f4b276397071ef80) (-0x585c38a8a0a3bef1b293f8b411785d50120db56fbdf4358c4899fcab3383d6d836b159e2549af65ff76d2fa1149ca1) (-0x118a4d6a851b961c0568948d9921718bfd65ae83091114e3a5fbbcff72719cc7ce7800d4646b9ae7279d1d3624203d0) (-0x156472e9418b44790d10fe93509614d59a12547f98b537034a62d2d725631ee7f322e98cb8a314739c3eb7f36fd4d7b) (-0x309f882d88a82968092d843f03d3236f0920d84be364c983fd6d70a601b1b92ca55311a4714cbf55bf3a0c6e50f6014);
  Dbl2 0x168ed8c6fd829f0fe33107eeb4bebc65e3f326544b7a0e29d4fe8dbdd8e14866f50f0fd149e8711ecddf04574fce6b1e 0x1486e68851a5fc5c4e08b029304e078f2e5e8e835deefc22fc555dcffabcc9707e4e4ae0321581bf8cb87831cdb3eb53 (-0x50f2aa20c2b0d880e101bcc6b0bf87ce71dc0611f3e2d83a19facd2b56ec930a15b9281a81580e27b2de1a05b97f385) 0x214cdb267623a6192adf154b5d2f427536bdab07f00354e149d4467e1c4ccc6eb9d7922d089a9bcc74b60ebb24cf6dfe (-0x35d78b33067c05c15b8e4528b6d603899bac0c96e814ecca1a9586c182a8adb63fb029176336dc086c73b9d3e15d82d) (-0x239cff5fc2bb79537575320fabf3e75c1e25cb88403ce97a3a9beaac1a1fd3cb61ca8b0557e00607f03c6a4ac537eac5) (-0x2dc4e8199348cede8b2979cb58ef42230f9a7e3f40117ca3f1869fbeebff4ebb05e51024ce4daca368291ed1f0db06) 0x601c868d2ffe7c212731f47e45a5f00e4d212972a3dbd78b1b30b2ecdba81477ea175b13840e515bdf01b05a321ff2c;
  Dbl2 0x7f3e2234e62486e3bb05f1d9d6909b9a2a0c1525ebc06a7f887c9c0a3ea7711a81cf42ad139d5681951580b3abd9dfb 0x4e2da135a25af45c3715d74653f3e10f07c25336f87c9436520c3b1b9e486bc2636f3d62eb75a7691f1ecc982a91e4a 0x7d55be234f9a3aeef613af697715251b5904bfab341e69c707b0cfed889cb9941cf6ef8af6d64b13c1df71739ed98a9 0x392e426141400f1ddae1df04655885e3a28736f067d2b1a79278f09888a10527a22c33942bcdced4cbb17e0ef5d76fe (-0x1839626ca99335ce757ecf306e340b148afd0bfc3d34da495d135da15cdaba78eabb2f5f81d658b80b913745bc449d5) (-0x2fd13ef84a274d3148403d1b9cde631d451dce6c7787f3acea0a0911cbfb5383186141bb2efa9bb22d91762eb752f51) (-0x48a03b04e645b1c07824e0588719d04d0ab93ac67b6b7079e1a0a42b697384063ef7ca24b9a804588bfdaf2e4ef53) (-0x17ec5823fadbe023bd8c5cd65cd085455e3d57750472c13a09b6f5fc7e5493bdfcd835385b3cbd453e80eacaadefad3);
  Dbl2 0x1da9bb36df3e14a4ba3906b35cb070141ab93728a6d06c2b8d24f304a8725de847ac94b51034f78ae3717f4a730634d 0x776530d9f22a6f4a14d5c12c2ae21df9bb160195605074b0c4e3be602eda7e718b29270b56ff86801101c8ed9a0054d 0xf4d19d3bdde6c1cc980675a8290336ee1a9da84f8f1e403e4ccffe58a27ad68dc1bca42052f7784ae72d763efb72f7 (-0x643bd69db3fcc57b17a28257c537c19bd3ce0396dff897ecea32939def8c47b1d498204490c7dcfe9bf0c585e3f272a) 0x2025a774e9427507b37571bb3fa96c5cb103d4df7858bbd35f583e2f46141b0a29c78f294d04faf6d4e18d1ff34c294 (-0x11063885ddbe81d004a4babfece681abdb64120a3e4fb2fa5431aa4cfcdce2d1364398f3ef7e407fbd68e29b3c50b29) (-0x84156daaff04630e8ecf1dbf5612de10a8de23069e88a8c414d02a2c0b7d922da845c0661f914ac9f53be67405d94c) 0x990f479357c6cf8c350244039be7f644244b461420bfbdc2ce7df8a094249306619a158e559814b3eb3e966a6b589;
  Dbl2 0x11f1dd56e66e24e1e69a5d2cdc445ddb48d162e340df433bf5ba71aad30778ef21d34b710823e75a02b0a398dc6bb939 0x1212b21a632102cc2781630e10afc9ecd973f28df0c5095356d6fbebb5de49c4042adeeb96e815d3b7ced86a1ec333fc 0x116d4ccc4efcf84f1f8e5cf3c4030a3c767a443b46c46cc900e93fd8383914ee2ccc6b45254c8c9a0b9fcbac64454f 0x111afe0389b1d4b23aa30ba1c6de0baa706189e6c10f5259a2d1118afcdb5120f84a423cac871542a844f1b2a0e6d552 0x2d79408a6a1a303233fcc3b2579fa644979f71ba75a47108220fe75e0e0209302a37c13773356e3c573104212250ad (-0x18f1841da956480654445397218553c01e6f591aa60c4cdde6f9bea79976977dd5f68d02172ae1816967ff03be47d6ce) (-0x35acd1446e34aa57e769a6219d8946dd69a00c63b7d20dc2e38f28f5a6eaf146fb028f29034d3033a076e8cc8f53511) 0xce4a2ae9739eb6f6232fb9cfbd38df31b17bedf6480c6ffb5e164d84d5677d2a82214614185bf27b297f16ebf01c3a8;
  Add2 0x2d2297f4bd84899a5131991eb455ebaa836cdcbd00c79891afa34db0279f76c6e43395ff5fc788bce8aef4cd6be0042 0xe676dd708b8aa96161358cd9149ca60dcdb58d1ba19f575eb67af2bbb7eab383b9e0a32d8b67c4ed3997985651904df 0x57ba69986f929fcac31ab49d45f31d6260d84ee4f5553160b09a531cca049ab105987e0a7f8d4d2bd5ba97317f5a012 (-0x2d2e3a9f8077efce0791e15659e355664545114672932f478145dbc49f4bd9915f698e08d69c12ea03ac1853ac669ec) 0x7ac2b6ff5930f03bf9587e19c20c7765e54e66c4073075a2e26746c8f944f30cbeca562e61381ca6218dfa64087d582 (-0x32007314b0198975cdf8706cc199740fa2638b10b8e362b3eed58c7ebfc63d5cf80895bab8e7d4f495daf8f6f6cd767) 0x66369a2f4ed3dd4c8f96a85112a9139633f28cb476715af8d2019a0e0a21dd61d938663eda29ddf72d083fb0fdd5055 0x312f129c867f56ac78ec96b59df074452c7da4dff91b63b47c5744508c9c769769b0f92f31a2967c67dbe059678f281;
  Dbl2 0x9954a612c77900b4537228726b355e7133791b82e89ab290cddf5304d88a5a68fb663ea387f19d779a7e19cd9145cb5 0xee1da25275212c01ce19f964e33175327050d2a07d8e7be4ff5dba1dd688b0cfcbb7d7d988c209984f074954b34a49c (-0x26175392c1c159bbe9f25ffafd0165096fb701c780d1394b53427cb30a7a499b450533757af132103ebce67bc6a5c072) (-0xa861a66786c9e3545fbc157f67409c4841afdd433250f8edbbff1ab1bd7206fe111940e74c95af3c51dbf9d2c464056) 0x4fc49bc82cce1a2ff7fca630f96d30a6cd6f2c675911b29b80e62534565c6771ce6dccd02d098737431438847aba829 (-0xaf80b611ec6d29a3742b917c7b563f6d0af64fc465ec9a393c3809278906af18c70ec521f7451f32a82dc00a65dea70) 0x282ece77d74126a5bc09b61cf683d28da41df4a2357e6c747312421da0fa4ae1b8e260d50f5e36e6f961346ddb60907 0x1629ab65d83d44b6bd5fa19bd2970dd2ca90981637384126b2dcd74c401bfdc22b82e39fb3bd7f1feec89dc90a3c2ab;
  Dbl2 0x2abae0628ca5e748ade3025b269641cc9278d2ceab7a7e6068beb6b810c097dfdb45056cd4c3b0243a7976ff8b88efe 0xd3dc23a5b13b0a0a729d0f1107a313b8ad597ef44cc44535c38c1c764737e61a3e9decbb88e0c705eecc530bca15a88 (-0x422717bf06337ad3802d13bbbf5c5c56c2f285b86453343e591fea30d697ab953f96a776efc79ff93e44ab17d8a82508) (-0x280f15f838e4bda052395674a7c4b5a7fc7d62f3e79bbd1ba398a73468762b3cc6b9e798a687510aa29e4f15a9110140) 0x677d72a609496daa55c2b54575258b83d4fb47febe27be507065864359cf0a149ad214353463e8b4d1fcd39707bc726 (-0x2b8414ec371f366467da4ab0b96ea1844779c25cd8d98770fd1145f6d30f7b1e55c72e0b40b727eecfc4cd2d037ba4a) (-0x5089cb3d414601b1f066a76c079117132a570d4ba1f51db8d406583ef0349da2e429de669c37ac0915ac1bf9eb6ae37) (-0x30a95cb2842a9795b971eccf087cc4c376ad089e7f843e630d5043851e2fad75a64d6ef8e059df1b6174a7709fef71e);
  Dbl2 0x13f9b098b1a83131136898cbafe6de770776b36d0c3289f8b34fada7f304bbf9a09040475a7f07d86c0176dbeb25dc31 0x1052820818f6e751f00812c4263a0fcf02477bc2a3ff0d7dd015325f556028564194fd65fb66dfa901d43d6fb64f2d7f 0xeb46ad2a9bc42cc2c596bd0130f7805a2691a3e96b7a4b953788a832803f89db910f86e0afb180e99e1648db2b927ea (-0x32e0cc6c35b9fc01653eea9ecd9d323d3c23a279a949a791ecff008064d17fb594503d05a034874b88dff39bae8494a) (-0x5195d03dc183b4559b50b012256e16d1a818f919345b267a9969b02fe832b221f0b8ee82b3491156d9f3936fb50db43) (-0x191384dbb86919aff8f9b8bf226e39fb512cee536c470f6cc1623825432933cb0a48637654db13fb9f3bc6c8b109f033) (-0x3cd3ab2e6fb09d643db30fc1d178d85ad35b2b50b64bf251af14bf929835aa68ce505e1c3bca610f15aa3b147667ed3) (-0x11a6093dd2720fb4738cb7d7b6e9aa5d4eb659c3e07c739ab60b105c935a05a82a72bcd02e902dde1fc6336eca116e9e);
  Dbl2 0x2c4a2fe0764bee4c6e67ea3096c23884e31e5c844cfacd09c199322df07a071aa6caa0a85709698cdf7d2c72c939325 0x1dc8450c93bc186ec75a7dc09a4362b70deb8c8b8be83092263a6d7c156a5ae84382f13b069b7add8f7e692ba033c61 0x745fcae046a24a5fb0f77e42481599bc1153f6454f9908b9717ac2f3c0aaebc27b203ef651621b096bf8a26191030c0 0x2f5fc80438c8c4b05557062d0e041bd47920edd6a7956f23f51e73155dd1a59252413c9758406d4169bc0c40236986a (-0x2952fa564a538104729ee04a41bc6b7ffbc47ddf20fdc63535c5176422615b924321a9c9ab19180c30d43b974ef618) (-0x6573010f34dbeb56a7fd9e709e50f54cde58327555f4cb0c097c05e27877d7252def376c7c8c591ee16bf96c1ae001) 0x17fe822b3586284aa84d006dfb89d81eeed35aa58845bb5f19a81140781045a3a3822277d62c419340917e5485d797b 0x204ebc7021a5228238e0ab9a98382c2ce262d0834467cbc20cec53034aa1d35b97606d67fdab86be633bc17b561cebe;
  Dbl2 0x18e411491ee91365ef27a4ea83545412cdefb80ac45a772e33fd65cee15cfff78cb29099fec079e21f7bd88761c564d4 0x207421d88a1b233729d19497ad27d572cec7176cbabfbaea4133073d5efbc7db5d9f7a2bef38619b6db150791ade5ff (-0xaeb6eb9c014d77e7690af54789c91e0af82f9c0efd26eed6d4330e13e998acb69ae72b5d4bdcf5392de7b0a7754ae95) (-0x2f34d6a5fdcafb6ecb1b597124adc2d5690d8474a3a739b35e8be965ceb6460a0d8ab32760591fb2a169d4c1c730d3e4) (-0x17aac38fc92b1b54058c87573e8eab40472b0d12e1a7e72579458dd8aab7b611bcef8ceba329482644500a0d63a9070a) (-0x3e20e3930e6ee511af473375529d2163462de0dcda7d05f6399402698600cd6786999cad373566af0667f5c1261623a) (-0xaffbc5d62b01542e294113baf2856cf3dabb3d18e8782e2d5e9b59369b7d21db7d7a7e2c29934c8a14a3ffca177960b) (-0xbc9c9cdfc4cf87d8f87efb44a04600eef6b02380f6aa526c1b0cde20fa7ae2aee24c6ba919a49f2b741bf332354a42b);
  Dbl2 0x7b1b73d134cd2caa13710a80dc33cd75052f9327df3ceb5e1b62b37ef6db6ec9c77dd15ef76edee42fd9afbb90d21b8 0x15e0c69f4e45a3f238cb39124d815d99fc6189cf1172c76b0a4795cc4dad82071b87d88fd3ae149806f4dff03206cae8 (-0x9ceb6779ca22cb6f63b296c1a3b357d2dc720348ccb78dce41f2821b292cc814c971439f531f03d3cde2c9f3a00c5a1) 0x23ed1ac40d811863d0a2721768e22ba03a36607b410188834e25101f760d01c975998f54b4e759bcd5092328a5abad10 0x102147d70ddd5547499cf390840cb4c5961b1f8803f26dd0d79a5e490c78c45651b46cfeaa5fed09985f6c7abe09223a (-0xcf25a1c52ff86f517cea9e10ee002a4c69290305f49a01102ba5b1c9dfccc753b8aa6642d881cd8ed956c2d9b18324f) (-0x12a5f55d5977b1b751b074f4170f200afc992cf0b2270f03f7084a0e66d49f992c18fe517c23a6aff31de5a0d4596c6d) 0xcc24e7923bb7632b5fa2571720aa44d1718d46001e390f8b2850fa94dfd91e388889403eb21540408e191829b807290;
  Dbl2 0xf39379f36d37bc26cedf405ac73c2456838d3efb7bf34744b7164feca40587ea1406c98e337dbed49ff5d681796dcaa 0x53a513145bdb7c9d4224866a936ae2d194bb097c0305bf3a1fd476c6a5a7b0b5f05a54b49ca249fc4dd97a640ca3b2f 0x3df4be6bb8e99c6577be562c40cdd6e08ae9e98a1086632f922b9c664bdc05710159cad406b7d13721eb029a35811ca7 (-0x3f9d54e92298fa30e10803ee245e8d9c5800fb646ae907b3262662d00236e1a86e0b9e056aed5e0c2d054c20626a2662) (-0x7dc7a7990c6828c4fe16a3a86edc4461f4e9c96c6b29c3ad254e717b6691814385d29ec50b6cca2d7226262dc2e0e7b) (-0x61ef82fe5b7cc3acc713f42edd5319430e61131d86a7729656dd6c90971ca6fe7c1255b0794f91bc7eecce0a6f69332) (-0x2dac1746029c46c449dcf9a0934404ecbb29b3456b277e8e5f03deafa60363c18a77a174a6e1f16f86833cc4c752e1) (-0xb918ce4fbc80256c7f759c88883fcc4cbc9c4d2b9bf545e05906fd8aa07caccca39900d53b41898624587236a48244f);
  Dbl2 0xc69c2800a25a87cebb354a8070f5e163aabf28cfac64283a1c796e8b4498484dc8d3f097019099e1edfd3ad5a1d9d24 0x187c6cb88d7e61e9604dd0148dabb70f3492dbbca736f05d68e4b343477a52c71e68f565371a4568b3e76811b1afa72d 0x4d42496165d925b19f4a290c14875f1bc5978de14ab52d7ac3e3d5b70607b4c85f97b6408566ccd141bb47802ea02e4 0x202ad04d5ce3bf26b94a2894a6047640b82de98e4d55e7c65156c4571b72f97b993a079a2e22a0bd4fc3a83e7965b82 0x11218fc9f4d8b44ff7c132dc5c65e7bac9f74cffe97ed89d1572872ce89816267c747ba9e71cf485234371f1e7431466 (-0x17607aa05e763b191fb49ba709a7d1178e5c8d72abd9528f936e125223677e9f7e28b7a3baa74a70c4ef772d3cac9746) 0x767489647f45e28e9b6ecbe35182c9a06c01d1e53ce2245d9d678ac8cff8070c2e73922c4aefc189cc981fd0120e597 0x1182870c213492ee532b001c268140d3b13fe10f2a475829fb826babec2c414c6cc97e37f81fc11f8d99c79aaf118592;
  Dbl2 0x186f97f2b673aef7c251985b6d3cf784dbe07d9d8c04c3cabe8faa9aa2e161bdecb39a7c2640d95d2bfd4871470f7b0b 0x15923aa41d228ef16754e206f12f131af4af000935c94608c2b74360d165f1930bdfa9c31e2cd4c8e4dda8f720eb00d8 (-0x3d94dc28969390e552568cb0d2e3abc18494206e98ee65c501e32eaccb552d48f921771df89d9323e05eb07193d70e1d) 0x1c6af29d3cbb679759b749e08b517888f9991bf7db6bde3719368c21ba3f4eb595f1b3935dd466efccb634eb8e03e9f2 (-0x5117bb5fa578ae89828a6d1dd0325e8944985556b43f222491bf2ff16daff83c30f436780a1011818b6cd288172177d) (-0x288a62c8823f795384342b728d19248755c514573914a4d1e719c4a820d64866d9b627519d2fd2c7cfcd63e798b54344) (-0x138d1699e0e66e33c062c675e601e872ccf6c76c490353969c4814b9908ec49b06075799cca48a97c1c19243f81af49b) (-0xa47ec2c3f4800949d0f49f1fa69288f644eda0edf2cd32ea0df0b6231ceed7ba32369a9292da499cd6400d7fde5a94a);
  Dbl2 0x140fd34b6a1c9d4a2d7066c5ae67b0993859927909409c3542ba7869445318b33ec0bfd0314418639da65cd90a2e31d 0x75d5f3acda35e066c2902c5f33445e5aa62b3ad9669b43328c68ec5349682120adfdd5e3c2c496118a393a80c74e9f1 (-0xa5cba6bde363b27b3b9850676229f7d18c036be09c1be89ea995ef869aaa1a6f24793c8b924c27e725d79bafa9889a) (-0xb0075ae2b1d89f256af5aa8616be9a31e472d834f7cc311e9529390acd07cc97489f019ba6a6c30e9d7c9675d9c9906) 0x2067c42c79d454e2dea463be270735ce8f070c0c2c6a8c636dd8218ca5290c747269972e80017d38a80027b82eb56dd (-0xb5d11ebe344daed35edc8a25da3868bbeb1087f4cebaa4cd67b99d30588bc716550aee7e94bed354c78a6fdd3b45d6) (-0xd8ff0a6fde5117d29607100c56733afefc3e543602ec21e22b5765868cfce1d9f9523240c6fd82aefb1e8d46852dba) 0x5b11165c13a8060f9e15d6838acf6b2992d72eb97f64b6abbb0cf9df0817a160fdf2637338999509e6e39108ddae32;
  Dbl2 0xca5703527ccb60afba79942e8747ec8935cc34780d310f873ab209ae0f75b182525603cee6479535959beeda2b065d6 0x13b8d03fc5aad0f3ce40a759ec847281cf13e2e8015f7d8bc3d076d7953ac41df638533f427b93784d1e7ed8683eb853 0x21dc5618fe8588173228f0f44beaf859c08210c2f5762b89f86797453c408ff52c6fc10f5b00656d1aec5729e0a62167 (-0xc42e029ed08d3a171d8577122528f0d802a40f6b665befca947203bd7ba7aa1cf0dd5479611c8c9f772682742111c76) 0x8ceac15caa945386fc588579adb95d040020726558121540f32a5cfa124c1bf2a10efedb08b34e575b138629ec870a3 (-0x132ea2b1a92311a360f3abf210c96a72a916021138eb82c79dd23036224f2f42c66a45878fb944fb05367a6333d91718) 0x17aa29c5b3b3afbf25f568578294a5a343fbf7f4a655328f70cccb9563b7f937988b5fc7a251408f0d47bfcfe6831f5 0x4226fb6869d59fbed533a7981fc7f472039b904293dac533fae93f2bba4e3859123dbf14a2c45008d6f9ecca355a533;
  Dbl2 0xf47c65fff1f4e389b470d7007cb7f5bffc141b9cacdb60a648711bc0d50db814512354958e58d134776c455336632da 0x19541780ead7bb3b92e38b3b4c22363cf9f191da527b73d9ba0ceaa101eacdad33452b8fb7723fcd891c58e11a81175e 0x3fde4364fc648e6c1e72c14f045ad9c4d392c134e533f32e79e4a8697dd6d20a3f3dc2a3925f65552100342fedb6a4 (-0x1a61e22c4b784f8e3dc6dbaa225a7ee47cc56868da4ef40b30e608b0a6eaeb1e984c2020da727288af6a6e302bc9f778) 0xfb1008608bcee3c38dfe8fdffe0a226b3e2ed48e08cf5f7408db45bab8e2c5c3eb9bddd91ff62977eaf9569f0f50e50 (-0x1dc442fcf3d47522e2cd15ab8deb9bff33bc16f0ddc70516be341cc739340898eae9f38d30edca381f853d45436efe80) 0x38e6dc08ec31b752004f822a82273d53da921cc199c2f5887e50ea1692013ae95bc6f7655cd1ca51100b93b490e2dcd (-0xf17c9d992faafe803d229abeb2154cdfcb7d1dd80d137281f08e17f3a31c9dc6aad8c4f4e28d8c13434417adc9e22f0);
  Dbl2 0x1b67f82c00b44a5151fd9d10f3c8cf6da6ad0fc366e9d742939656348cfa566e98b14d5d0dd8710339e8df7da210439 0xc10a5e52bac1203f96f55a7f8b50272ae19290ac8ff3077f95750e4b6952cf56859f9a80559d1682baa01917e8e2c72 (-0x1cd00fb40ec471561f27457249c914f0f5c728aa21ce0dda6d35cd5551c281d31088b057237ec2b2e68adcbeb9ecb46) 0x25669c0e9acedf094edac54781a237835772f7fe201fef51bcc410ce865ae33292b9d6193d32dfac31434e4d9781730 0x57c24241473f042bfdf0c2ec31a26033ae23213606f857fe70c06424fe8861a949e4578fc5f066cade8b2fdf7e7860f (-0x196e54658c87933e8a3c9ff79f4e1a465b8aae6d3b83509c7979b1d206cf597ef2b98f6637f1730b34851c2c8481730) 0x1bea629e2de80e8b567fd39e016522746f7f62febfdb09404b3da1c57bffd6f3821ddf83ddb2f62b2ac17e71f1ce8b4 (-0x207f0836def61a873b9940ab6282acb39cef7f2033df24ef7f52bbbdac84f9125abab11cb125a87718dc07bf5787410);
  Dbl2 0xa72a29029d2cc7ceb8b74b7c138ce9d5223004390181de92de2b6e5f30a71b68df3f01fbedb025c5b5fcc2b2bb0672e 0xbaa930e29ac661ccb2604d002252070c2fbfe3476a2279d9374faa5b2832a64111649eb1eb39b76ebb4b521c40458b2 (-0xbcae270105c97dadbffe2fd3c748fbb496f9478237c2d9085806069b2901938c6d24c90ac2de6cd5c7cd11c10c5bd00) 0x1304c0027fedef6c8e9eee4843a5a824aeac16ece8c998c694b2bdff7eb37e68050ea3943f01d6f88a29137b185f7a6c 0x10946680b9dfe7d9daf07c69d226c3f56251ec98337e29fa82cdd9ceba9cab6d2026f286147aeca3fe1a94246882e03 (-0x95fda82ff8357c8597be641da3f1fbf1eee2a9fb6e6ccf65135ee3ca14d6621ae9ff92d1142f9240d8e4033e63dc2a4) 0x9db9ffec341ee45a686a748a6516abe31bbdc6106c045a06099f4133afe623cd70ef7481d478eb8170799d1c173003c 0x807506c802111f29389bbc22bd80be0fd173fe11c4a7ac75514aa46f5412b6b650dd90570d5c02413005a1fb41a00f2;
  Dbl2 0x1a4926361a55cd96a820e503fe76e4abe2eaa06af08557e6e566042cfe21cf66227f9180c6485da901ea0eabee5a7fb 0x19d519b1074a57135fd24770d32b147153e5d2b6a802312af861e6e477eb6adef47a975ba139800e31fbf07e4dc983d5 (-0x55715537602889b50b1021c27553e34371d7e207d6d2aaf5d94f70321063d9b862d849bcf6e1f5bdbec5b80c26c43c7f) 0x2c24b1d9e42fc04238773f8c49d74f18a9a556ebb082af8bddc8efac42fda76caf0ee38da19cf16540884b7ff060ed1e 0x198ed9ce50bc3a6d10ee114b35d8724043e14c7f593ff778f410507bd43282af79e4d5198316c803f997bbf8d9755aa9 (-0x34396839093df098a2c7b776a119e06b8314ad39436c2e50d33be3b756435fdd962d6a7be15c79a2a3b394580fc75ed) (-0x2d7ccbd6eac9d2c13a6a5621732a78053197fda28b84a4a1cc20def2ada7e61d8c5d0b7faa11cfb32c4f044bf2278be) (-0xd557e52d64a7c6f0191c54d9fbc9292e608a9f9f6aad0d9bba4695d46e1598d314ad460a3e009dd9e05a746f37f9eda);
  Dbl2 0x17d075a0cc0498af09fb4eac4b78b8b954f6b0e5077c4f7f3f5a158243d8866c9b804fe933d69b0a05e99c0fe2409ded 0x26c8b4addc84e8f3e202f260bf35efe731c8b237cd9a59968560978493faa34b4f62711db5a1e626ea8065e936a4820 (-0x239a3ed08c29c85181e534d5f4e38e5f76b3efad60f95c295d0b5ea45d180412ce0f74a7aababb3059180f327c60904) 0x2611813e93343f33638f40f67605bd468f8b6c5be8c4c1d74f6c8f87f8accc07221abac0d4612851943130f907ee81fc (-0x1595370da3bd2390048387d52187105b6265f034ceaf24dc86be1ba6ec0dcc403ec5867adb34b8d617817d41be39b5f1) (-0x470929d14f82eeeb7f4ba3a7e258d67979fb95f0bf09da63abed1674034df8da96467402dba0950b85948d8103acad8) (-0x6d3bb61345d9a69d18cfff0d01d3d46afd810472b9818d91ed874f404657113580aface60deed9ac2d30760c78aec74) 0x8dc087aa1e4846a36b481048fb25a31b4f3529ab9c7e494bb29d078cdcc4f5df9c97d24dd3068b213ae8a3c30c6aec3].
Definition tV : Z * Z * Z * Z :=
  (0x16f17fa7ffaf7364fd831783d00d57c213f8305eb99da1c9810f91380be371c05939f4240ead2f265a90c145b3a859c, 0xc62dfa0af2c62508f96b68b06af8915daaa8b1c00957ef8379647bea7cc35828135293012bc500b16a32ff1dc53dc4a, 0x95731b30a059fdf18866a5fb463a4e43560a24b88dad9f45d15b5d31db4741be6b596a28b4b7878400e025268c94efb, 0x12455e66ba2ca2a5f0578e09dc264152f55aa8b74034860672716570efc3ccb46b901e090d25f07262923faaf854d2f7).
Definition chain_U : list step2 := [
  Dbl2 0xc4d171f63a27393605e02c562319a770fcd47e887e860cdb7e64bb214eec413c8051371b841f30d6a9215be712bdb04 0x116b9a0d2f5f9748cd40c69d80e974d3eb14c7594dd90e4c65977b3bdc708739b3b418a146ce96cb8383728a370627c4 0x1d1cada980185a0eb361d5305799f1fba0659cc1ac88f73adffe0d75aa11f2371a190b09a83549169a2b846a5f119d4 0x19b3d57d03697c8eb2602c68896a8d1ede23bd30f68d773448b1facc3e2bd02760d6d2a347b970baf02f010632cd8480 0x5d9d90d6a50cf4dceaf31adc01a97ba7a58e5169d444453f9eeb41703c466d44370189f7f424e2091dd3ae9da63ebf8 (-0x107b2e1e46dc3afb66a18919990cb05b44332a251defbe7d9e2bcde8043b69f35d74014893aa485f5db460970e813f1a) (-0xb75a2eff343862b54d463f321963fbcaa7c4b5a11d271b923889f5a23f95ec9ddb02e7f25c46ed66f5db062d7a5051) 0x825e1c5d09a354468c7c305431f877d76281fb965f4414fabfa8aab41fc45a9edeb18cd8dd1de37f91ea45b7ea99a3f;
  Add2 0x54acf68764f23c8f4b4b054f48d51a4197e9818f1fc26fb602bbdcdc75894364f1228bfb092eabb985a7a03a138b182 0x1177eec4d1e4bb6f0908f075e9ee93485f2d1a2123997fbd4faf1e5185eb070e83cf6fe38713845634b428fa7f4d3b18 0x2c7a688ed668822e0f8df3158bf9c8a494ac8fe3bc941aa7c669c87cc0332936a7e2c4505e211e16fd19d82bb3616b5 (-0x66cd40d5ed0d70b5cf6424803ad41f45da97e4f8097543a365e2af59f7c0b8a1978ecd69b2e4914870219c243c30023) 0xaa85400df26fa9812341b2cf1d64241b9265ad4dd139c43db9369c894cd5cc608e459af1da26efd6290ed2b7feb2d79 (-0x71c34c862e4153c365fc28518e4572d06587c76acef26c2d2cb21aa3a6fe0b0ad3fb4e65237711e6c956304211f1183) 0x2f14d062fd4a134a4c892c55717a7a4392615d722562a7c2a1b2261fbb67b21486f47f7813180e90da06c7bcad3d013 0x50e068c832cb3e04874efa561024357c80b4eaf0d0dcfb7f48a2da0c34e201dbdb4ab1a10f2e9c8d4817b25861c38a0;
  Dbl2 0x2cbdcb92f8409c816ab870cfc63c106aee713b210960457bad074cc6b8f605dbfdbf7455e4199c4d0c5ab9a9cf79959 0x138f05f3da4a66f57a8210de9eec3c8161ec3e879c53b19388c016e293f7d0993c372aa2c195a1b52c17f8fb2b2b6122 (-0x15bb3c0a4042d413b1f2772f9b8dcbf0bb1ef5ce9e4438461c6b6567a185189f62b07e446e88fb1c71f8be71280852a2) (-0x370c7e6dfdc3b342e51a36443835f6161effd2fca501648f93201525c83925ed9ae7ebc88bf9d4eec4f2f544d386848e) 0xe68fbd8c96dd7e9ce9cef699befc8f4f5db5e4919b974bf991c10ec8f563c0b3979e9d7c80a649656e637cc2d697ae4 (-0x434da0b6817fa48775be056c55d5eb468a36720a689efbbcb1619261df7b8c8c84e0cb874abcd07e6110cc38bbaccca) (-0x22a46621588e426d0372991f1ff77aafd316b71ccbed48d5e440abcadcc58f88ec1ad7214e54f8dbcf93892c0eb2cde) (-0x22ec7c7ee82e2ff345010164ebf19cb1266cba941a4cf5ed2072cc4da59b5aea972ffe72f499ab36ad61c3ecedf9f4d);
  Dbl2 0x166cb0e383a1cbde56940ec3eb5f5db9a8b6cd28cc10acdc3082f07a0dd4078480accb9719a9511992f1e1dbe2e98069 0x126e3135cac5e48ab4a89e09b8fa1bfee808dc337f8084e83c1b2f4e59d67b2ca55e6a9fe5a6b04c5fa92425df9a5cbd 0x139f100d2205a7c5be2b48016bdc9349dd729adb71666347a398267fa7de7fb4c4e5d89ca025da7b63b841b56c66d309 0x2f35430a623f9541280f8a0b81defa7034729870d49d9a005579ea68bafa416ac7e6429717c6d5cf9db2b828108ceb2 (-0x646711478601b305057fc82c746b15e3d2a32992d0abb48971cc7efea0dc710d7f3b6facb92fc54b552a2f61484dfec) (-0x1fc96b3cadf5ab0c98253c37025103b4131863076807a28d5171c4e844e9421d4bf2a15b6196fcf663f99c3947398b70) 0xaafaa52264bbe93240430e0abd7f2e0c0ad14547f375969e3ee8f6492c0c3b72c16adaf4967314429274f192c37c838 0x809469faa47b1b8bddad340a5efad80dc8c072031d9646e7a362a1ffc0b7663f4e7c609f1d6eb6e8b677b847569d0b5;
  Add2 0x41240bac84fff1b4dc97b91b48650381517a35b07c716d4acefffa3e7bceedb00e4d1984d71867d822b82d6b756cf5c 0x642fc22044c140247a51807f0a525632474edce644c153456881d780937a3bc58ee4a34298a9a9f9211fa64f7eafebe (-0x247efb479efd204778c85af6d51e16a485f5ba13e41713d19156c485cf3a9366ad1c44c5569d7526a04f52898ba0391) (-0x6e3cbb136cff627f65387a59726dc120a5a6a0b0cbb0612995d9d209f64b196a090513844e7c6f15af822812d983d27) 0xdecfa8fea86164d107bc62d41c19133a75001d6eb7a4a13bf0d9034f7805a9a9a96d80e8f2ffc981a268316cd4c208 (-0x1f5efed2793ac63559798ba3983f225a9b6940f051d837b322db992fa14b1b8ac0763a9799aae8e0d8c5db8cd26e139) (-0x13a322c01a6854aa900301fbf3ddebdbf9a9f9cbbffbcbf372bb7e0c09b525a6a37f7da8529a64eee26c24ddf505421) (-0x6e1f4f5074c2f2d18297de935175fda74839ee577a4ff88353a698d0f822972077c045a7be143dfd3377b0d2020285e);
  Dbl2 0x119cb33593676b15c07b4023b7aadd5d9c614dc5ee021f328eb4a672577e859a70f7c044c2e5e826644e7bfd91cb8d7 0x128d0d410d1ba7160843ec92b2075ff0aa4e424899eab258f57865a0fbf42c6c445a33588122f8d598fc771c1d39589d (-0x9bb408ca76ebc070131f01a6fc14fe16747c559005fdaa7685096219850588c43a5764e02f44037f6b991431bcd104d) 0x1de2bdbdd1bd8c0817298852b2c919ad4dd5c25be62183ea017a3fed3898926414c617b66a87a40d5fc21c2e62a81646 0xd2ff8f443aaeb932da1d4e129d14e88a12c3468f562ab61d860124d3de6d78a3b1db1a420cc23680ef3c9983da3ee7c (-0x1920e0077d494fff15d7d99fc925549827e4c5b2ab27b0c903973f8341a1d5505736d3524c38f6908272ab7a1d8022a) 0x4d9fa71ac1a29c291b7aad6e2f5aa464a8c3d3b0188c57e2a56b96d39572629ba3d91294fee429e4b4e883fd4b44610 0xaf8c868413a8c9286495b1c23eccafc6322750952a4ed911c1b192a9ed924756a91160a5a9445b6ad4beb4c60d3e93e;
  Dbl2 0x65ab6355600a7c99bb733d375bc60b7e937bdde4692d40ffeeea1ec41e5c36df8fdf6dd7ab70157f1121aded3b50777 0x5af0b81af0ee2f01de0550c00980cd09b771a07a63bacb11e3629df3bd89d0cd3ec2a0cfd2de31153e338bc5eb67688 (-0x2ec4086c5ee8d46be3bf42e11b367b597ca9042a22813058d1db047b261e1441d668666f0d05823cbdd958d989080a9c) (-0x602b2944778eafd99c138a88e68e3f21c3d857f184ae7b5d61af089b0b42a2fa49cd54a1b6f4d2eaa43345a45cb124e) (-0x4f783df2788ac56f5db42375bbb5d1047ba3293d3c82f05c08ebacc41f4b5164ad2622f9290383fa3bff873ba1a410) (-0x2c71af1d5a0e00350ecf125f7dceb7fe19a18ef91404b5c17b59d1f9c7e428bcc4985b029fe9de8f5b8a99c0f7fced1) (-0x2fe85db6856d7e7514f05458eedc4eea77013d6b11c675b637493d5c1062d7bd9999da7255cb0a7036b33fd273b70d3) (-0x1cabc3bc0529ba2704a69de66283bb94b8c97f48e3f5d40f494a3f415e9153309483e5381504b4145c35247fc3d5a6f);
  Dbl2 0x1436a617ad6ba42dabd592a87179a83a7f7a31c9a98ce07098088524ed45c83783cd169bcc9ae94da6e27e82a7525fff 0x6c52a1a3e373a4cdb65ac2e9384c68c3ee84bcf7930056ba018c3bc912be60d0d640aafe5a7e5e56c77dd5f61208db6 (-0x3c60bf5c72be758a577bbcee29a3f32809f7a3e54daf52062147caae139bd63242bd697dcc5c60d6d73be0bdd3c5954) (-0x47064666aab9f1cfcaecda7ff9302347b6c4bd442187134565a17def46a3f966abb40fac4c2b45edd27afd3409ec938) (-0xdf31c3c3c9977edfbac2bab061a31b84f68521ea8f3de0a71a4ed538f84e4e247e7575cd22f54c31534991c4fc74c14) (-0xa866f11ef4cdfc69b5ff1ad638ab12a73265b46150340b3ba5ff78a5329d26c7d3de1618505a60ce8bd76db9f7faf76) (-0x8023711a247f160409db4b5fd9e343d9f29c3197a7ac7ad576c88bd6d64d6c8e4f994c6c5b6da646167f7e7303be2e) 0x93df8e131614d33e05769ccbb4a657902cbb08dfc64c9bc591d3c1b403c356ee07e5783c43ec832370bb04db667b772;
  Add2 0x146b849f37c4e8a0ad45dad18be8fd29d700c828ae564746f878ef2568d1c5a826d383bd8338f1ca4e9b8f2a7a426b8b 0x15b6111349ebe34e435b42b575bb28a5d5c095e00809ba70b919c361ca2129689342a64600cbb7ab38de889b2904966 (-0x7e1655771eba44600a19780dd019c5ca53e4450e1ed2f5f1118fe6c4b6ec3caa254478e23c0bd6af4ed9cea22ded42e) (-0x3a7a84a56752d75a0478fca81c1e2cfb26018a3b14d19db3bdd85611c8bbab71679fe71e1f664e10c3f83340ebf4471) (-0xff6d2eb580f82e7c30e2ad1f63b20b52f614d980e181812bd9aa75d73e4fc78087a1c45aa879df5930d1e95405dfc46) (-0x2219089f155b0c37afd73b1340f70a9e1d3ca27fcd29366691c6801f94b395b5e993c1e7c8724c1d44146ee8fc292f9) (-0x4dafcac2774365bf0f359b5c7b7eded50696c2cff43fc79364eb64427e915f5b6ed775f65bc13f9f4f9b6fc6d8c1482) 0x620fc2bd3245e36eab9a36a867da9f86798974210a3c34d3bd691bdad3031cfd64088f9be54fd8999a06d6747918b69;
  Dbl2 0x14ef7d930793b6fd253735251e0520b4d2c75c20451c5765fe9bb364704088a95c793069fddfaac39027bc31db160fa0 0x184b808d7a961174b48e4d115c5cf065e6fae8ebf4822547d49ed2ed3142548483e1fa8a62846ef100a8c7a395b0725f 0x188cc4ba8b2bd53c5f9bd001806779e9197a8a0eeecd80f50a064d7438dd6d7f7d0432da27fb1f41011c6cbb960613b9 0xcaaf0bf98e4a6d6a9182c4a314c537c66566aaed020ca574a9bf76babb7d9cd310586cd765c1af1ea3807f83cafecde 0x5d7dd1273a62701321f25cdf56d1e53e4377ba01ebe5bf7b03af1933713a097c045397d020697584dd2389021a30fab (-0x271e6cb68e930b51ddeedd22bce8cc71bf3b5d300fa227c2f77eb3d392c85c9d69a667f424fd5005a9d3cd7fa4fe9189) (-0x277e6c80565951283b12e90146cae8f5dc28936609b384893e0d65d061541147c46268451feff340167368512389c2a) (-0x4a65bd124ff926482c51b29cbfbab5c79991835d6937634e1bf2d9ecf9a91955e3983f0051bcf826aad04e33a5be8d4);
  Dbl2 0x17aced9a5d54320838839bb62f56406a39fe0e189a32f0ffb62f7e9b2e79e75a956acd5e5929e51b168576f67a41d1ef 0x17cb3a9e0154c738f32f964fb4be94b1366f89394f6b921d0ea476c5545a831a50e0088577a28e103e8a3f0143faa380 0x3d609ea81f5bbb003b8a32bf947bcbf170e7f612bc7466e1d38c6b1faaaa674d3ace9550749af3fa1f25b218a03224ff 0x4b941019824f8ded40b411fbc6babd88494b4bcd2919aa73fd5793215383c54c2153af075501fbb33a752561f3785df8 0x37500d4074ecd9e3db5895454e9e463a1516aeb455a2f992c20f48bab01667a258f53816b29d4a1c992b3c86106804 (-0x2b53843f6ad5425ff767a67d0e302d7c2d6b8d4dbf249388d83f0d5dd21357f000d1b09d880c4f6e23b9edb657d275b8) 0x1ab23c77b7b6eff157a92d82c749d0ca67b4248e682e7e46f47a8624929c2271863445aa64b8a73a8cfb85ec4713c139 0x238baf928c400b5edbe1e24e0bf4d0ac20f29c5fd1a522921f8f07d79ac41ec7bd8bbcc0b78d35cb774d4fdcc7e565a;
  Dbl2 0x19ad5eb392d74e524d8b508245023e1a56710acf47e5358b349a4f3c97fc3429dfa8b9a39c600849676b5fa222ae2760 0x18dcc801dacaff91813282ac6b37c0a5c198efe47e4346d96f7f1598b08042fbbf1b66595c5b1b811d1afd0403b55e28 (-0x3a819e31a48613afb224acbc2abc50072d8d1afe528fa5922e8607da1d29a89892fbf1576c83f417cd5ce8c11c152afd) 0xd3ffd57eeba283aed7e2a0b8283af6a76635a98ac67571e7b8bccf11e90f62d4c5694732cc1743978348b66851910ec (-0x195657360ecbf6f3c93c09b5cb8e52bd1e00c48b5e41f69be36948649a8d5c396b6db9863a88cecbb4be3cfb222d760) (-0x3119832d018974e130bf76e122c6d3f2e94eafa54e6fe138466c16f76dc400b6ece8e212104fd20dbb046c91e7b94f9e) (-0x926bab5ec593560e2e81ded5b55350d9d676e60c7a746d269ff4e3c14bf7a2854250ac3b1db8b6065d9696c8a4aeff9) 0x565017c458dcbeee1daf08daf7e560e0ebb3a254f060ece105cc551b7c82c50f898e7efeb01c15fc7a2e743d122c69a;
  Dbl2 0x1c942099a6fb3cf6badac90e5d32a1e31ff5162e5ea28e5d776972f2c07313397af77b068bedbef5fffd99ee30c7329 0x8bc8f34503571849190da64496f33c429a5ed935a493ea367f265b9453cc80f9355bf3e83d60cda6957ba9b858d3f8 0xa39797f3b7d9567621fdc2148cb897b4a586796e3e9418e2661bf7b7a0b1dbecb8a1a88af45a6814fcaff1b8b030398 (-0x3dea0f36d020bb552b5d8fcf38e51cad1a10d401dd03d2d5cba99b696250ade56c1d79ce07d8b9b61c0622d95c833a22) (-0x1c790551b8139df6030b693b43ce86f54bd5e632aba60f33a8e09ae2a40dfa46d469f83af76e69652c19708c0f6948) (-0x1333f6690a30cef75b5baf58ffc9a28ed9447a09a39b08ff486f7e6271bb7c0ada761dfe9906406f332f78083cb303) (-0x9b02c2ad622b050d3c53c13d7b788d70fcd5ef2984765b01e90438ad1f9724d43ac357d4e7932d4e74a9442e7a1041) (-0xa5808493ff515e91e1850d4829b8aba3d720612ce1013ae257d364cbda3ca2fff46621d2e3373fdf5ee7ee20ea6ee8);
  Dbl2 0x6d9ba5411c304cb07bf4a3aa6fe0ba534d726ef3f6c9fa1722d671fb7efbe51be7bf980568508e50e94422f45356c04 0x42506fba9ba8f8c840c2f584ccd348adbda82e0e62e399f020269a28b54452d88f8399fb124cb0a0595a507859520e9 0xee4f015633e57f20855d1fcbe7760b98e32cd06d1cbbba9e4b9e10c0c25e8661ac9390fcf9ff37716382318296af9cc (-0x7219251d7d7edce33a89b029f4ac2b099563a23cfff6d63360ae21d29fc641b9833d8bf90df353911e8b0379dec8e12) (-0x124e3948a7c9dd3c697fe6a401e18c106963400c74e9a15d7c0616d7bf24190cf3852420db89c66da2633913ef7ffc3) (-0x22f07d8b8e3f5f0476feb1c42139e053352d6db1c74c8e334ba2c11e694b457ddc38dfe290401bed5c770127636c191) (-0x155889efe78976cd815e7bcfc6a365d6123b496884be0c733b43c9b06cc8f1675df41651beda8c64346adac292fc8d6) 0x12e7c16fb0d2374d0f7bd7035fc0853b585814c30b0594e2a797dc17897342dc1d8edf6cd92bc4f4dda5a3a8b5c6d7b;
  Dbl2 0x10ada8228dc0c3ef9750c80f585b60080d652bf1f7517193ca907b816c5fde9dc8c8b70ba2bbfd9b63d04f7a48d55170 0xd6286a0e46af1ae1cb0f184b735508e3c2cb7c73a7caa7ffb81a81303dc25434a789b4f1481b9023d4714843dc8c91e 0x37983e6d73e7fdb2ad7756db6023b7638774c345c1f1570fa0737b50f503860173d7e94f4e0d122630d9098691fe6459 0x175196265436e7619490b7ce661f94264aba5dcf6e2427e73401e4fffebe06d17a04514c585192a02c2afae775bfce78 (-0x3cebc8d565374af26d6ca593dfa292f9b77043b935b128b4c91f26feda05795a1078a355220bb55209a99916d6b6d00) (-0x112b5a9e196ccfa7cd227f4ec78437e46b920194ecc786d4f91fb95ad8d846a92890bc899f2b7d08fa14222975c698cc) 0x7e386629f97f6da9874db7515b28f822cfd49d3fdbb4e7b3893b18f531b4a68de40705028331afc27b62c2cca01553c 0xdbdfd80e535efb933ebb845ba3fce137db4e4699ac992aaa8d185a85321f49239462ddbbbe5cac1085ce78776c1908e;
  Dbl2 0xd2f78d936c838f3bf2f198ad258f75e4f4adf1da2eef258e0a3aedcf4094e67ba4eb78a381237b3eee956b2a5931412 0x523bdc7593550beebd0ef922eba38b24e247a5c67ead43ab46480262f2bf4e1719ff4a3158a5c24c27740d37bb67a49 0xf552cb66399f70536f186721f5d9ecdc810ec8e5cb4d46214dd77e62bb11ae32e9815758ae5b54e607ff6e794e25058 (-0x7184b786bfeef8fcb21c4e9caf1a0d64b6edfa4726f61f3f07c039e68449a17d97a37cb98e2b531ded6f6a52afb4066c) (-0x5ab7c212a4a27d8f9be254f93136ab08e1e1c4ce2bf78675c5d801c60829426a654dba7f063700c4d74be387d21a0c1) (-0x5364b8ead3b1d24f8d8bd9e31c654192c1ea9496ca1bf6f94ed52342318b232b98f20b2f5f7a5a54f7a15c2301d95bb) 0x669d434074fbe373d59668cc58e72f92ebdf003c25e81d5fed88f0314ae086589a815234471bafc4e46467af4fc754b (-0xad46445b8ba42aca88bb38459541cea6cc5a4b7d6dc3707c79ae874ef48f2651b290321054eff3f03b4e2359f309f0b);
  Dbl2 0xa021efda83f96c4d371a3a7a7407bd16b7f472a47ba49d0cc28704bc25e1fd79ee01b2e98d27c858f9e39461264c186 0x1d83ebd0ed072025e7a10e7ed2303d469551d80d3fd2a55acabe3c4e8b3d95baf9e4ff96c80490bad53495fec260ea (-0x4310c8d7f2f62aacff731dc0c253177b27f466f43df5225446feaa7393beca75fce94dcff7129b6788a3c0a426e676cb) 0xb63eced49ab5e2b52b521cb9c623969f322c7a16b063fbee9587c9cfcfaf236bef729743dd73a8cc98bbc2ad8bac34c (-0x3d9f550cc552f738c4d8897ccd3d35b54993ce322a6eba73e717d2534a739502745a41e0f8ae572968d7c71ebb1ad29) (-0x16b820b3ef6c7a9345c9af2b632da7f96514ce2ff442f9805d5a3a30e10d4a6da9756d3d8bb40feb78d35393280b95) (-0x9af2a6dccce7de8b596df648b9df8b129707d13d7ada21955b0bbaacc1e955f9324bce5e153e43753db422aafc030f9) 0x9373f5affb4e569018021d0540fb1a4359916d212ee6a9f388790928386b2891c6da044f555ea110eba161c57e2fa7e;
  Dbl2 0x838b8e246eaf53c5267aacc5480c841384cdf943559c6ea18c3d6781116f104f13e97b33cc1756b0da22a7ce07651c1 0x10b886c9a863b0badf57c7559da9b7fa42fb02d36096a37c29f6085c2e1ac0d5e19607c41ee2766ac956a3ae21fa1291 0x4627bd9391de33b5442ecf632916b6f202c2356d38c89eb6e78b28036e3e691520fdc28c9a24efb907c68876dc9ae48c 0x2858419cb9cc39f2efa613cc9b706c16b75b69207a49e2f5fae7328e2749438f46eeda3813e0dbfc884fe9f7070734aa 0x826f641cdb5dcea7fa27b4bc65e9a59a19c3c8ca7b7e881ad1dca047e595d55647ef75ec54a55540f5f52e7773ad600 (-0xa92b12a293672782a9fbd9a9bd2720ac73db4e2c83d72b4690312ce61ce25b056a1f54fc317b14a4ecdfb88a228e1f0) 0x161d1f8cf8c080a83a70c47f7eeaf189e67a4f688192188d1ad9328b3b4a3a45601ab3ed9070b8994dde089b7c96e736 0x74e52e27e4f971ff6bf340f66773f3386ab5859d6b80ab1dbe1c5448eb183fb473d442f44e4199b83b329afbf8fe4a6;
  Add2 0x11827f89fe2163cb9a70ebd2449a5936179d734164535a9805bce99d0c2a10c7f037f8c08eb6aa21044712a6f864092a 0x11d8a8e08f48bd242e3289cc5554b55ee6eb00f3e23d257f99e517e96e83008f872107e1d8a25cd15ee08761c6a4ae97 (-0x156573fa85d93e487724be890299b7421185d7568e70fd4a8acbe6c4277b1df12bf75961a58b9358d98e3abb1d09a122) (-0x7da54130221bfaf271a3acd318094ea6efd65e17e5cc9c6038518936b0bd30f1bb4f184b33cffa675bfe9c534d506c2) 0x7525d683fba1ce5ee47f1c0750e81e8f2b231d4194ee380deb5d4f5078727ced11ec564161ba9933dbb79405363c95 (-0x18088f2b9e58f513ec32899f8d45c9ab2e2d4260f8a2ce9e4d10e109c390bbc386e7410ded8c8320d403ef9d5a770476) (-0x11f1050da1be37d1611dca0af3db37a2688b6ce5325f6e15ee670da6b20500bb7a7c07ee8b0b570f96ac48a5ad1fb4d8) 0xc5ba35b74ea7bb47a133900eb8bf94062f5da6b7a8bae9cd8a143ff919e73a093625f812c320beff31cdf28d22626c6;
  Dbl2 0x14aadedc6e8f23ff51db03f16f0be3fba873e73a519d155694a317b014aa7a4f2c9192f7e69c172598a9fe81e7998cbf 0x15fd53c607fe264ce9b0be88cf37e2468f57227372cd37110734ddbf0cc6d689d0fc24f8b911fd73eb94565afa165d90 0xdd102336e90969e71a3693dbcba9b14c3d0d149bb329427727e8e35f16caaccd8e66797166b7ef8cf34766e5d73f58a (-0x4bd1cfa63842c86819ee75914876c9b1c74dc1c1f526a4f8ac59be999591435e148dc18cd8999391e5da265e311cd736) 0x22b33893cb21a5f1e0e5751b5e397dc8a81ccaef77b72937b626c2eddbd16781b3f876b3749a93a4988b659bf99a848 (-0x22f417e3fb2a4cf2aaeb58ecd6f0a7cdeaefd20b1a620fe23426528c215e2915abf62a2e4294ddb90f8159da25af6199) 0x7d94a390f988ac3e9ce9da7ace1cae056b3cc9a9bdd21647657f5d3cee6a3d20f358d2323fadef8b81ff32a7910c03b (-0x1db9604a356e24cc85e5f971890ddf56fe163c025e20ef7c3a0b6ddfb22fa4953d30624a6d0d3f9e9a5ab703562fa6fc);
  Dbl2 0x9b44dee81351fadcde880c3a000493495d9f9a25cfe417d203539f85c606c74f95d01e10b47d8ccd3924271f6c698d3 0x7dbc85eabb72126e3fa5cf73fd0c8fff03633b3995e45aa1b00cfd79006ca0199b91944a68cf91ed97c60e3155ac131 (-0x9972ce8f53b7b153ec01c6c38e757363d76f6e527f7d4c2728114e12da3ff5d99fc66586ed9001c39f82435dba8c0ae) 0x12bb468d5311fe1010fb9d3e211a3114cab8c069e7fa4e20700917ff71391701492a766c6967e5819a80794ef2a3d394 (-0x13f225c52839ceaabaec96eac6f848893541a7325ef06ed17e77707dc258b853b99fe179032062ce561c25f51218d33) (-0x5dd86908a15fb92d8061245cdd432d6da96cc6cc987ec4bb6fb26981d721597572ec8df75072c156ab8df244375be63) 0x15ab182521b802a44be1b90044882a036adfcb2689241803028fb0727dc7157c294480dd2d1f7daca688ac896e24c0f 0x10fdbdc42ec28264f6ce86d25ccecb5b2ccc3a52474a340156f562a420afd0628fe951ff612ad7379c7cad6427e261a;
  Dbl2 0x1055a96088ffc15727a9382f0a0722bfe35b68ce217158c8aaadd5f8b278ff23bc3edaa70bf2730f14500d25b57551e0 0x2cec618ca5f2f956f4cfde9aecd6186cf5287ed630e933ad466e77ac6ce54867689ccbab0a15d91d251714abd4cce45 0x4a4100a503beb7c4d5dfd94df3ca71f692dbd3e544f9b2aa2bac25b04bf62ab1c3c21bede71faf8a11cdb4e0db59d38 0x1eb8f6b4f3a3da6af099eecbb625c8c7ae3d034c2c2ee0872aec1d6c74883fa27fd1d35927a9c4f8dbbb68473d380fa6 (-0x9f51e41bee93a46acd9b70ff681022cbfc475d0170b1ed5a38dbff4c3947fc70ebecdb96c2d7d290aa3a86cdd883538) (-0x38700233ba1412d60f0931ce2811e5f42e02f7709470bc1185de30e7dec39c703523a4858b21ce92f704750dc6343a3) 0x5804057ee661eef491b1a5fc763d3d082b1ae609a4007f6f1e15b9f83cb60823ce6f167ab50ced3b6b1d9a6525e20c7 0xea722ad6de7a15aa58995ceee4ab416a3fcd753aa6e4c80c3421fcef0514363d87c50679a255b0f0347e9b51d72b0a3;
  Dbl2 0x157ed537d160a85b86630c8bf9b11dc7e1227865ed0410c19156fd6ce5d5dff8ebbbe0f6196356283b278fd4c22801e1 0xa97b7615033e48cac8877d5777d0aad42126f9e13e7ca5175476238748b1e541159eda2604f89961ff0c9c43a79f021 0x1fb04710caca4eea8b3e8973eedc6bbb6da89167331772acb45ac920e38d2d07d78870fc0449baeff53716327d73d738 (-0x47bd0efa35c141290b4f44d1a3503a270d2a829bc555316450a98420b76746c5f6a07b0d61dd528d018cbedd675c15ee) (-0xd741f5a124b80c783a2da5a68b69d0c4febd0f6f2679450a950452b67cfe30b29313a5334e3ef4de127b48741fee120) (-0x118317075ba83718114318b23c3217cf6bf14b1550721c08a17d5e1d190134b9528721062b0c335e1cbceff7c4515388) 0x3c00bb6f33266cc57aa2fedef83888f54fbcd6d2b7f34ea922d69da42df089bd1b847e27f852c78603f4cfddf46a7c3 (-0x506c6845029d83999c44db5611815da16b7769f3e2411918e313f8a7cf39ed6290f66c0bd1b80d6de600bc023d65adc);
  Dbl2 0x13955076b95c749cdcd9bf640d9b6bfeaff334dbe835e14cecf886d2ae39f0747eb9f6c4b4835808a6ae5ef8049ba378 0x10463b0d80f0a895689b38c3c3bd25a0f0fa6a7220962742327f194579606cc02d9621e21c32e5f30d5d1f6ec8c1c7b4 (-0x3009df481ce912a7867911d308f6a6e02b724c6ac7c39f67040a12185895b80ccc42a16df1b2820656c1e576aeaa4eac) (-0x2ea14b0e4a886ccaeed63a0b9aec64cde6aaf3cfb9d4142c00309310124715b5c47a9797a1ad9400b76870df146a4f40) (-0x4900eca5ca1a167069bbf79194402f6fed822bef50c432be8bf8de4082c4202b58296ab5b1a5c29f3eb036d14126a40) (-0x18830523520b924513334cc513ccce54cbe145bb13c61da65b6ccd1fe49a4f5344f5e184b0401739dae3d4b91d006303) (-0x10badb60a8e68a5857650ab016503070bd4129e6999a8e45a4fd0ac4df9880ee960d338c2b206abc579091c83c76d324) (-0xab82591fa7efabea0ccffcf44dacdec5ab6a3bed0f985258184e91576c0e8536cc34b36d2e0d26c1ceebef51fa2b66a);
  Dbl2 0x14b82bcfee54dd8651fe043aa5653253542f099d37823b2d2672641f7e83a53cf40a3e952cb82551be42d8a5fac88e0 0x4b59146e1541d2c54c49937b04150fb434e89664aad363f28b0c74e5dcfb63a57b2976edb0897e7457d982067aa5e24 0x20a03d57c189c7af6970a28511b0fb6baccf37f08612fa5023f0274b93d55df62e3acd547b430a3dd8e91a01c58a4a91 (-0x510f8cc919c8021b860934e9a70ea99a28eb2b02d3a7f7559319bbd8c4f06816ecdc6bef2844c0b364febb01c9bc168) 0xc9d086c6d1fedcf289cefcff29cb0f0b5a7d81ec015226b2f76be70bdada2e7c6857970d4544136039cc85f5978ed7 (-0x781205880e3438626a4501f777eef97347120c6f2ec2afec7d9a9e23781597fa63ebbdbca0232401a194df5f4abdaf) (-0x7cec4bcdc88318d7fe483708fb7a80faa02d7fcf24e4cd2ec4aad96172eaed87e2eaf06f066cb5a27cadf4fabb2474) 0x118944c8506b870195f0f9f0e6229edab072549ab8a1eff5f3951d4e6c15f68ebe558047091faf8190d8935f38bd5d9;
  Dbl2 0xc8409f1b8ce230eac4517afe1382f07bc303501212c16ac1e2a87e69d6ff25cf76c2a7bdf52e226b2fdd60ad6629e09 0xd10fac17326d17a3e8101a4f5fb9a078db96b3c02f4c60e3818d05f3066f654fb8b9f05b7012480d67b33d03e9d7b4b 0x394b424ba9ebd7b42c175b452a900c58a6dcabc4d39f228b2132d2c5076bca920c6ceb7b8dfadd3f4e3f6c84ead4bb0c 0x89a4e21096197a776ec88e6b2b3b4ef9d5201875e8c2b97600272abe6cacf35387781549b51179e7f5bdd730ad77712 0x8aa72e0d74f7dec48800258eebb046d0c9ba53a89bd1f24cc6aa73f3d1c8feaea70cf22d0c767144f7ef2ad0ab4444 (-0xc93de48dfbfa7099d529c3d0fe782724303b0481cb12f71e618e7ed4b5966479f8497fc0764cb2e6318cfa0c6f8f9aa) 0xc15f62d38a2d913582f3bf32b6ef776175b26550eb76ad4f69ee8b47a14b1c69881c17e4b7c56f143dcc45f1991cfd0 0x2743198aaa35bdf5539dbcf334b6084c6ed251298e98f68016386eb668364207b03d92065f7e5c80158cfe22bd9f561;
  Dbl2 0xde07d740c060974e179c95148a3042fb0f5c51a8b67d17b758437f4ad5b57b5c7c51b121e6cd883a866ff6cbf38d79b 0xfc293bbaa7b9b1cee9d5ecde196cc20520a5b3fb023fba853e82b1d6a14f18df251e16b2b477a71b46029283008c3f1 (-0x13780bf8d46120ae778dd52b68269eacc7ae0b1ac5c20a1693101c76d3d1f9611ed4950f4c1524c28d6eac11b9c78e3a) (-0x16e0e12f064592d81f57afdd34332e9bf965b75f3e19aff17ba7f72db02347ad7b25aef0469c2c50f7bbe447a6991eda) 0x2256f5670bee710a04da0d64ab9f8e99b2bd489450097ed9514175ff84a0c9749ac7dbfb8217ebaaec8ce12178aab46 (-0x10d2097b4e2e50e5b7821e04a7d23b239890f2b3cd5d626deeaf7d149155d2700137b444579327bc94d2d5d2918eeef4) (-0x36166caf73503ac500538ca6a020363fde7cdd711bac1db5cf0d0645794a52e04e951c42d85d54ca7aed73f8adad4e6) 0x33e94e59c4ed00db14803b4a3d7968e9c0cae619581157a6e1a8adc2c44ee3f67d9867af2c519f511719abdb2677599;
  Dbl2 0x96b56d97e2f880e4be06d0e5402dc7d49706c5b52e64462bda4b480aa5dddc9a4755b72d4a4b1fc0e5f9c58fedea0e8 0x51b252e80b63d06a51fb56956d3b2c66c73d03fa16f40cedf94c22c2469499f089f1c6360ada4c8c4c4173a3d627c7f (-0xc10dff9e56ef578995a8a99818265025bffcbd9cc405b9816e3938a8e628607d278d20465b0c654094ca460d366d120) (-0x4919ef84505444d6d250d881a2e98746282b2a9b9551d1b7906c287a4abb8ec31532b127ade253878c92b1b86737e594) (-0x268c6f021f10269b8a5770c16005775b9f1845ba3c109229ef9c05e5c90aa9fbafa8621316c364e422166b3a5a7f67b) (-0x3b2f44f316ac8597252e038bb248ea42c1e327c5be0541dd82465e9c53131639b07461e933de5243cdb16e2324f68b4) 0x4d98ba55c3ffba7856b732893b8b7650f2022f40b3d80b4c376a1299af484c7992245ca114d343adeab4c75f60421bd (-0x60edd4eadc56d6c7f89771dd445b532be945a6ec26a9f149e866a80f901cfaa99b12fb2df95ddc6565c48314d68331c);
  Dbl2 0xec8e03c018db905494bdb794bd0396c4b0899106e9bff6b0e446b73154c7a706288b512a7f0b8b2777549bd1def7d3a 0x11d48c94dd5e8cca90305d8e6c09150ea9505dba84b33c56d4207d4f8d8189a3e1ad08874f989993e6206686035c94ee (-0x44d7af2aebaf93897678783c48ff69c3f07fc363abb7bf0c5ebcd682c94c5c1925699d4a7e9b9f7144985fe0f937d830) 0x9b4e775d015b2c4fca02b09f5041ce5f03b78a5220fee6f598f08bcd0a6832668741b4f2a95a8f376231d33632b4ddc 0x3d1e192b6c5b853145448398cf82df379bd68ce2d19cb63d2c211f96c5ba1876b2dbb1c033c278c811cfecc39886969 (-0x144658df6ccc59cbd550796adf19c00ea2704a4de30f34cd9af6c48bafd3acb30e27fca2385be94f9c8e576436c9946d) (-0xf37177de208b80e1687c981f68dafa512c2b325d8fa57c06c2fae6130944011ba0e69372e74ae320471e33744a4fed8) (-0x2012d632eb6f274485ccb3fbf4379aa0e63fc6f847da6558c64fd3e9bfdfba9465b806e3c2115749cc3e2468c64808f);
  Dbl2 0x167129ff33895cae1c3db876e9e9b35265b22e3ff612fce57a7c6a5a096f22c15ea3eb70f11bb75b18e069922b08758f 0x183c01921ef66d8104357898c34eb04e6453b0475f2772afff2698e92c31dd548eb3fa41a23567be73d637718df7fdef (-0x1ed392884e1dab759494aeeefe45a035a3ec99059a130439f3a442bb9add7ed75fd98b96a919f3ef21468286dc5770d4) 0x413f0452d6a9867feb2b4c2bbd36d0d3a55866e5964be2ac1e271f0aa27b770801c26650af8e6f117ba84761fee45fa 0x3379a57ed8ed8ea648288e7a5bf94ee6f2dbfa62da56e88cf00be7fbe2f4a1385da85abfd07fbb32437b62d1c74a799 (-0x29d45317141b9aef5c474e6f091280b95c78b4fba2469dd4fd77dbbe725916653489ac2b4dcb58ae5979337feb504bf2) 0xca5c7faba656e3980e389dc8a06045f995f53f859654e0abf7dfbe49064ad6d17d044e8eda6a3de5f79b8c0cf076eb (-0x4de89f168467ced1dab1d5676b66b3e32de749294fcc2a5ce6dc86cf1f24138d961b6b0df925e1d66817163bb1069ab);
  Dbl2 0x198f0d5781190001eac26508215d7fe0d3c9cf1f4ca1afd78adb4dd767ce364205d6549f6a30c2e561953700bde48b77 0x17146113b3602b1d336a1d09fbe710e74d7fb2eb038ebfe5ed0b0e6789f4d33bb5d82e2058453a4578fe4c139a8e5cd9 (-0x9edc9ec2e1b49b1f41c19e2d3301a9819fcd9082d91070b7330ec1a6cd8d157b24d16cce129747b86abbe1b270ac4fd) 0x1879b2c936a79ca64b7f5945e1ea31efdbff4c6e375c95508596c35eb5838308eab983238c2996bc59339cd81a706ff8 (-0x4a318c4b15715de30a938ec608d790985e66221341db5587035874f15e18f79255c1b35382bc9ec745db81e023f7ae6) (-0x2d5e5e6c5786bd1cddf331f95c885c68a67258f7652df02ef4e987a61b1982b6a96ffaf1f4a803680329b3c58aecdcbe) 0x528b1e94935037060ef29a39c7a5969956a6a7acdac407d6de08b6f5e2108f6c8a8a2a5da67cacb4b0fb1d965cc103 0x5115dc970885d1825969d80c42e8bc781f7c6cc8783e0f3f7dd4e28a9b82ddedcf3e60c6a97d97c164f90f962d714a;
  Dbl2 0x76582d6e7184b3febe4d06b5ef561fb5bec82527210bd98bc51d1f44e59226afb5d3de1f730d810290e5d79aff6201e 0xa9e39138fbe82bcb00addb8d7347146db7dd760e92e808aaa4d3d241e1c3f48926c666012d0ba9e6d24242e52260a7a (-0x86834ac6828c83e58fd1a44535515f2dca80e1eb7c37793976244e5e8af4b592c2e11185b2986c1ec69ea41da1013b4) (-0xe91c6544342ed150cef549c73705d94c563d20bcbc34b129af86e07f8a886a67fcb5f8052dc3f150f680790c58fc75c) 0x23b533fb64f124cb8a975047e38306fe5b65394a9f011a840e19fa081333f1cda1e8635c0b95ea076289bac2e9b27a4 (-0x60a524fb51ee451d13b3fb875e7a5be6c7ce124a6d5401f98e8724df07621f00ea627ecbe8f7ef2bb47ed78109fa09d) (-0x55578f0faea1d2be738d0b250c93c6b20938c550f100307c366e949df9ccd900d8815633fa3866a6b2e011c09bccb0d) 0x2ac4e8643ee6e1c557490e001996e3c70f656cef3ea7bd5d5a93937f06afa3320c95cd107233361367579cf1eea66f7;
  Dbl2 0xe39ab87f484eeda57fd22627c95a4c505aeca43257399d82e40831dc7a35bd0853738f1ab5eb96e001d17f08ebd32d8 0x16b03ed86bba9f5b513d1aec96125de15f84abaf5a8a82d0ba2eeaa9d5e83894bf7d512f7587413027380f61be107caa 0x15d380c02363bc5bd1510fc1cd1f7cac94168ecfb8946aec287e8b4c11cad88561429f7a94a45b733d67df71a577a2dd 0xb048db0a746c2579d6d3ae16d3e44b96b0ccf017475ec13fd013b16594e09ce9c6811d222e9acd10781b4366de093a0 0xc03853d3e052d46c218542599cd0776caf0ed33a46aa53cfb3a15a3d3104d8635f7bdb5542ff4b166ca5818aa885dc3 (-0x18d2a960f207f91e5bacd3948e5d722cd5aa73d0f09e867c54985ba246bf8ceaf7cf7ef26806d0a211e61fcaea580fbb) 0xaa82f468a14db28fe800acd18520d2bb9d753ab90b6fe5c3571518d26973c4444b9ff2b78d74b806643931d7008d840 (-0xe6694b389e87ef5e2c1478e9e9657b3453cea1410f5c3070e7f31938ba557626e487f83941b8ae28b3a524fec1ea35f);
  Dbl2 0xbafb65e08e4bbedb1950db854a9e4fb3dde9fe5fa3071f4a4a5f12c869004918c40fbae10dc53cec898e38d4adfaed6 0x12889e553afbe123240bf0c0aa40b7900250699ab1f1a22d62e3dc544f3e03b2d52c1423d94966992535dec6900a6580 (-0x16c57d1e248e949c9f0327f71cee6ce1b5c45d90a5aed1aec2c9538e59ea0206fc26cbfd385356e78118f89a2a714648) 0x135eabbb12765089ac71bbd87e002ba31eb80195e1cf8e3d4f5f505703e4a97cff5bfd33015757294d6161bdcd66b48e 0x7f517767335969a8f8ef5108bd713de6a532cee2f91bd798700fdefd9122deeb3afdc3f37ce36dbb725cf9512f92253 (-0x10a87fb879e36c39917a7aeeecf27a1e62c28492d242ae9c8832f74b6a73412d88bf094b84c20ea6d280c82ab6c81a81) (-0xb899b47d41c1cf3019ee5ff081aa1c9636cf5ef7b2050c366c7fa0172c4be796dc9dbdd1c1ff915bafdce08041651e4) 0xba2ae3c840b852fb99868ebed8c8e8c66be4762af041f2e7134a0cca4b25148af2209b88a11b395d52852ae57c5459c;
  Dbl2 0x112ad1ced676e5cd9c8283e9c6340449a9cefad550ca1ee2c372200f407862a0be09397baf71e4e8091c9fb95ff948ef 0x13cbdd4a4f186573f3c056801a5924879f3ff90d1373147c506a3c6177c25783450a75c605a0fced30463fe671ff29c0 0x4c58493c824212997a3bca642d057debb4e8c78b8bf810bf26231c5826ed6a4ab7ae07e1b4abf6ea52460ef43de2d024 (-0x766fcde989a0526f48d527d1a9d6b93ac2060321f60e072f9d3e51388e7e2213e5e4c3868263dad2f285318374e4ffa) 0x3bcb2e3673b169bb194d9fe6a74ec3a72a691fe82131033db350aa6c9e08acb5c877ce2b5b2a9871d6a7ec2dbcccb66 (-0x1a23564c3dcc91903f467881a302661ac366ea169b3b247b143b5fc8c3a770b08dd57d8a8b6065fafeb6e5a53a878c25) 0xe10139d887401c4aa66624ae08620265dda15b2a50d389062ca192a418c72ad2ca90e17fc67969734e93f9d1321892f (-0x3128373a1e8243a456cada0ddb01c97f6f69dba6ad488b4e9529db430496053fc46b7f6f21d43104ab4293554783e8e);
  Dbl2 0x19ef35b7ab0813afb4b53a9d153ef730d329df724fa80a6ee3188d2efc40463b13a4a77bb00f879aba7039a4327ad8f2 0x163a1501ab950ddb76beafa71e0d72d2b81a2bdb98b88a31c42b0bb3265645679b21f34996ba61e1bb98d3d28a32be0f 0x1b1dd651ad05ec7854089b0ab3f6f836a7e8cc5a841d46f4742ac7eef49a87efa94a787ed92fc3a381868eb1a27ae358 (-0x110c46d7d985d0917d06d07eb01ace613c940fedec468601d02a0b5bdb2e8fa3351259e6a782fd5e06024d794578b54) (-0x6ddd767deb4ccbe5bd6d40e8355c579f9dae95d242f5480e61baec55848113b042989e624d704d60e934c64c3dc5ac5) (-0x2c55a1e877e360102ee5867e899c414411fa3f12cd305bcb2c4236c8430b79895ad7fb4567b048ab3118b5c2d900b388) 0x3953d2707f4a0518cff64a7dbab5626a419e2142cb2e76a6a213573b63e0035deb1c12a6c0fc990177ad6b7dce3800e 0x3f1dcf51f2fbc7f6b1e2b42f48cb18fb9597081d4250ed9a0fed3869a08f3f19252aeb06b9aa400ab29cd5c3d9e1f9b;
  Dbl2 0x2fb6d98362696bc41830d95987392ded099e6a1ee48ad8162c91f0c38cb6dad197d6e0f09eb23775e933daa5c2e269a 0x1857cbc4b4beccfbc0e8929c7ed6b22f50f86b20986b62ba19e500b15be3305ae2a6228c8bddbe6d9d834b9300f02ab (-0x166dac79b64c4ec6cfe355c23ccbbac266447e5f0c7a6c896979fdb65bdf1a85c5bc6982a7b5253988e1e87cadb7389c) (-0x29dffb03cbe6f4144b02da55b684d466aba38e7e8e1ab09f9a1726468f1cb7970c3830b4b471786fdc01b6033a67f780) (-0x40c2f4c59f8bf1111fc8a5e17390577fca95492e96de59cd68f219029b4d70a2bf4c97f1b13383bab0a40c11f01640) (-0x59550e2ada328172ca450e7ee62ceb2a275cbaddd037204ca13538714ae02394082760b0187d36ed419186d380d44d) 0x8c6b3c6f14628bce5ffb9166be0e6424141e8f4d2f8a225afb203edbafd08868aa851ee9ecc25ec0c893ae684d6f44 0x64be0e1d6a57d905eb1181acefa3508ba97c132a1a611241de682f8524af3ed5744390bb5bc485dd96ca3bd0394a39;
  Dbl2 0x15f0d8650ef0d0f258a7932bc81c78e3f9b08e1a2f9905b49eab22f93ba27403240e8b136d8744ff9cf7168ae6d600a4 0xdbb8a25860340ab597af28b1e3e3d01f5727acd5f28998e5abec7b3b4aa37383101a2a25ce10c4e39e4285994aa8c9e (-0xfe32bd97be0d65f7b7955b7bd5dafa56f2de0354ae248af9f16cbdaedd348b28d3ef14b21960753ab662a8a4e560d08) (-0x2759f8e3d6e90967723d0d31cd3c0efc03753b949a87b8d795598847eeb2784f4f8e25a46d214d7b1241782cb61825c2) (-0xb42a3aeb00c5e0e3403a1c2bd9c12cefd1bf270b79c2f9b5f20efe814a463691c0ab5628c7d7fd795d6126b24b76400) (-0x172c6993068726040dd1ccbdcf02e9e169802714816c22f6c81a092d8bd4439025f42f28a38ada297e7895197c1ef12b) (-0x3b55b1cba9400a28ccee8be33a2645341697cc1567599fd36887228356ad311db495b5cafbf32dfbea6c0459c0bb380) 0x29e530b299b6433f17108bf571864f91d2132aff3c6cb69879c6d7b6e87eb8ef8a673c306b6d94b660d02b2e5375a10;
  Dbl2 0x10a70d8a490f3e3069ae341601d01132d226a4515e63e7157e83cb5537951a64e3c543ac1e9bd7f312e25f86307eb1f3 0x190182098246b94be3215fff0186b108c096fc2dad4a56643a3f8b873101f0d1ce0c3b542637b5462996b8b1012b3dfb (-0x214cfe5c9cb7aec80fc1cef89cdf397ad149e6c0d870fabf478d6456d3cfc87f53fdb634bd685f68fc751b8d0fb7755d) (-0x448d0ef9749c0d06befdb1b7517b43813c4618cd1a87445f41649000ce03ddb1ade6eae55ead76a2f9f1fb614f7f8bfe) 0xd61c8b7aff74cffba068c0f6123b4bb346252aa496ea43bba25c0c35b6af32315ee228acad50ebc9463871577c3e0ef (-0x2006cad36370fd9ff25832e32cbd9ed835934add07f6128a059fd9e52711d1bb705060b1a75127b8ae773423eb90903e) 0x98649a1dd50f671543d9217030615fd1307cc6b6a7abadea32e99deac3f3e174b74099e682bd9e2fb2f8a54b656bc8d (-0x15b94db750bc736d0868b0898110c3f4f0e35d783bb4c6a8496d4e7b57d84fbdcac997c6ecf8c4e34cab07657d9fa98);
  Dbl2 0x19457978df6fad0b68da4eabf9795abb5845146cd3cec51514fca203d7d9e62b485a1dd8346214d409fd61f3ad8d5e3d 0x185e2eb108200773e17f5344210ad60d451491dfb111de73758c543717c79a97b0cc24febb689f9ff5525fddde85f7ac (-0x3fa2da48ca6e46966db700d7256fb1653b85733ca2611e077af78d06d697ee598e97a5f6185ef63096865bdbb81e3975) (-0xf251e1d422cf3377696a00e429b3496f5d4a33aa7c30c1b112feb1cf9b84b093078b4d03af90f8d995fa8ecc6e2cca8) (-0x1b9833ee71833fb00c7873155a4e71841f07a860dc1cffecf196dc0c4282fca4a7c466c43b7b9e9c35eb8c43aaeab4e) (-0x2f5cc8401d79c50fc4a89dcb67f8846fb0e7d5ee9ba23bd6191fa74a633ac99069edd3d9630d1095445a00a3acc16234) (-0x1a5aa9fbff054c6da68568d2ef5c8a8226c7dd0d5da9cce0ca0afd42234591f47de0f3f69a3dcbbbf009ae9b4ad993c6) (-0x4bae487011116b55645c5e817703fa6546c74b7271c72d46c75ce2cb752b1068dfd36797a3d980f04823ba605fa5e1e);
  Dbl2 0x12da43857556afc0251fc40e2e0fa4c46da5ba32bc1cb656724ba7f1ef901ac49731520e67baf76e6bd5961f5fd6dfb6 0xffee79bb3dff79ab711eafdff4e21da958e32216f3d0e1c4a062280ac6d5077a90a03fb80fabadb06093937c801383f 0x41fdf199e0f50230790558422d39baf3ac9168e2d697abcc37a4310a99a51c4f44dc57349151f8e47745f7dbb7d7d75b 0x6f32a7a99e9c9fbd68edff2114315b5a3bbc74500e72b2548a77cc1dc5f6236ba4f130a2f5ec18485bdcc2fd7cd17c (-0x3d418f11a71d65c777ca36b81dda32168a92e23f2b495384738aa7fc39540c7b8034becd64adfec017ffe59afaae602) (-0x1731795d527dc8e34c82cdd17a37e6046c05e9df88f801f4f27c56a7514ffae28abcde7a90569caa6ea0d9ed8ad18bf9) 0x63e578f2c4bad9b3678f79508b5c3789caaa7975b496486cadde6d479ebc8a120ffbac4d8daf958377f6df94ca3764a 0x3c1a8f75ace293165ea57bde4dc90e9d4248d5f4283b38c580aa6056c2401bc6f0583f765ee2e2a28b2e44d98777c36;
  Dbl2 0x13221b2aab528ec448f1db49457c3d2aae538a141a6b716912619a91e7738912c3e98edd8a8eb86408bac012e018d34a 0x37522588ceeeafbd6fad01ba0e360b21b7f8b770278b910e06e21787c2892e6c8bf3c830b8b0aa06af93da60f87d0e1 0x2659ae81e25ab2e27bb3ff18038b342bc2d25ee59ea3353d50a1b7892ad6f3859674678e5792208662257f5ea8df73f4 (-0x1d818b8935f89ba3cd9070f06a023a3ff16bc2b65f56b7aa2d631d718466fb2f45d8b1971833e3a64753c477e4372fec) (-0xd9e373029fee7f73aaabf5ea0abc9958898f3d14589dc1aed8f811359ba4ccee04f40fdce2dc19328fe15a220b7fb76) (-0x51684f0d141c7a468ca19382e2f839343f2e718b48b51b058eb83fbf10f1a0f3ff9270163eea1277c3464a6d608ded3) (-0x5ddabf5560ccae7f85e65b951f6c44801f0cb58a3288a2d939ca2b0438d2a18e4bf07573332c3d6cc31f2fafa01a253) (-0x585dd27c8d36b7aa03e2348780d1055310d882fc42eebd0dbe3b5d21fde5f47f6c3ec55f3a092683ca68443e0c15154);
  Dbl2 0x4c4e8956c50a264848ec4a680b86a104b794a07a64aedab201601d2a6cb875e662c61b21d0389c9bb2e10d4b6d87110 0xab017a16fdd69bcbc58d4e70038336b580b151c68e8579e2502f828fd69f4f0360a53dd1375c9610f1c2446234b78bf 0x124557c20e97b08f4b491f9b7a305c58d0b2c5abe1b13a02ff84caf4ec12eda47366247cd25d3b4bed715047ca59a7a8 0x19ccda71cd532f5568ffab9298d08295a4f5b2ed496d3ff7e618e0656af52cd1e8772f53f3954662cd9e391484aa81a 0x384a24cef3409f178ebbb58a49734d8fb36d4aed91a9ab46ca0de0d8bcf8eb2a0d00cd46ab7cf1e36f98d044ea28252 (-0x3eb99a7c974914010252650e40af95b3ec84ce8287c62ffb4d999fa0fdfcb214b747fb00596894ff853387161b723c4) 0x431542928a2c720f3200c3feed2b79ba0cf8cf8c54e9a6640fefcac109f7fd614029e95ddbdf885d32238284ea049c1 (-0x45892d2da40d576f6c8c343b88452329f3627b0d48d71bf9c6e726289575a3b348bbf6d6cc521f15db0ee7215238566);
  Dbl2 0x9c18800a646937661ef3532d499ec43dbd5cb886147271731666da14dc2edb25755361e36d66d0bc872b9e017284436 0x193f582faa41c9db322dfced4dffd94bdb913026a572b3c59fc967455c623891b69c91f3bede7b1308994bb4aad22ee1 (-0x1535b411f3e12af8e5f7f5f80e1d0e28badbea1a91df1fb630f85437a8c232011a34deba12fe7f5603079a4c518646a9) 0x41b1b677d47c79455c64c816210d1082fdbede275fefbf2cf126350be761b0d2be618563c4521ebb9dd98225a9137148 0x14da422384739b5df118e75e7e9d0ba2a74755071235bd01dfe9ca1c4cd40bf3b75facc11468fb00527638a9703d458a (-0x12f1b3df2aab126b2d188a74ae7d429007e9f49be2c5294a95b92642c48d073ebb1cff30272887d2a713a8c11b147041) (-0xec460c55952057070a386f4860159ff539ed2ec3a625ad0c48417d2526888ad083685f2950102a3977cc7c64a12d8b0) 0x8192a0d14022070bb04dfa63a21db63fdc31a5d2b125a94be55d284bc477a3913df8fe24ad7fbe75e1d7e4510bb0239;
  Dbl2 0x2ed0a52f48c679ae984b3a31d6ebedef976f3075628b3c83b3c9fa74cf3f00b94b10b3cc8dedf4de701d8f938a65d28 0x4a1ac63bc613ade8af01a1ecad4a9429f90cfd64aaeb81bd234cee8e6c6aeeff523005e60b24cea8cbf50a7b1b6945f 0x1d1b03a043b17d9cac2074fd2df3a9442ec6e0b3b63bff159f0f07d8e2a600286c7ce6bac84d62a835ba414ca74b3832 (-0x39300661b294d26c0ebd5a9c8d483c9d15a65d68fbfa771de7c7b60c2af980748f0106ad15ae69b0bd73fa23ce80844) 0x7ee58bf3278817050ead187a1abdd20cea52959bf4fc09e73de0337401ade76153106dfa07d9bd4f0ac227e31c41f3 (-0x10ad1b9fd435f273178fce20ac80075509cd00ea03158e53c79fbfcb1bcc2257063d53c72eff650b028b8b589fe7770) 0x1a7b671e37a6107d40887b4dd89a1987a7a723481bc039546e63323a4583c1f5a427314b169dc99e53efa43ac92aa4 0x37166d7cc24036e0a57ff94c626343f28624f76fa0a6f88c9272091f141351f87dee75890b111effc6b580ee277d4ad;
  Dbl2 0x20b0e827852860e6ec226e31a80166810ad90f5c744a731c34d85a67cdf7b0cf39710895c00baf31c8996632393a39 0x7f92f9c01448d4853fe9e328b76e334d87a06d43061fde91646416fa7adc6f90e4576b85c7bfd82fe6b9547140a5a7a 0x1507cc480d1a3d2a943c26da77b2fe7b2c14d7614154cc8b62ae43934fd6b006bf0b2b9e381d5547bf9b4fcfdd09bf38 (-0x5df884de8d1c4e25b397b5ac77d316b06de3c94ea98fe3943ec83b04b5fbd4caf91bd2499e4ddd86ccd46a42d151b9be) 0x271b4d873ef1e77b7e8077ca9a52bb83fc9dd84cca4530f80fbe016696748553ba70fa499127f33e733611f40ed610d (-0x140c22e553f056afc05389963d85a161914665ad80d48487cb1a547e1cb5db7da17cdd9f32ca5bd9a1cb6321adf29b) (-0x403465dd2af1ee9175c30857129b2a17e86e239786938a5cb5d05ae229bb7b6821dfc4f08155f3dba89198ad9bf4df) (-0x240466e79617913d0002c51f895eeefbf1d9d0526504fa232ed521ef27684fae9dd03a0b7a44078117d816a84e80671);
  Dbl2 0x19191ba3f65c238e1a516a48d7d5c7fec0d9a325a96cd2ef77ea69d313224ae4ef3209ac96d32a4d66330eaf72e710d3 0xcbfb6f3b141d15b9867900d2161c70e1bdd4eb88ff89f0988421321b9e2754510bfa2820acfe6c6600215c3593ab53 0x6b21a536ad98bc94982e44ab0b539400f244fa941cc707b0c39070bd89aac104f31cc6f1d7bde5113eb11b7872126c29 (-0x238ddbbd4aa9f72d786bf0590f9a9e2d2bc96a4b1e668bfbe9ac3e00bb0b0f8a911768918ba757e31130f7e1a233275c) (-0x1832fa6e556d4559e1616b46e0c8d344faf3306cbddd10bdb51ce1bab9fd76105042033aec24ebfce832e2387e09deb3) (-0x189bfc0c370a4d917e4d52f108cfa13ff2a1c95c949250dc1da164052cbab6de0040f8aa17da59cf070ac59252d6b19) 0xb6e277558077a90615d9a1dd1b7e1b272ebf3c61bcc16f63967736db4af03db0b3c239620b4c1639e5c31d5debc4d78 (-0x178151c925aac50f77920389a568770f02ced0ba0787de414f22b52c0f0df217a72f8d729ea812f292c0f045b460698b);
  Dbl2 0x1722d1d701236f9b3e598d3d7f8d963faab5e9a1979ea99d4a85e15c6200cf0c7fa8f94b8a44c837759dda658fc5b227 0xe68a7bad3c87a0f63160b03aa633c7964ad5281f437975f35aba035a6400439cfe790ea8ec64893d0c6aa63b6bf01f3 (-0x41fe18fcf382eaf92509de1d258033b0de6a9ca94b162212decaf2a10d44bc1817377835cd271d78af2e869eba11bef6) 0x1d4ac9f7a8227d42fc52d3463c6abc21a86cf40cd75a979a49fc17d164848f56eaf53ec374c253985d425af0f762df80 (-0xc99af8e9314edd0b12f4bdc86eb4e186f2cbec67ab8664de6a8f13ae22267ede0a1a0488b43cdeaabba876a719714ae) (-0x19a39ec7882494ae586a5ad2652ab49d40e8903e70dd0bc69ad5c5d52d9837f41f4a65cad36f6a037f48f223b85c6fc1) (-0x12d01a619afded0619a8e50a17bfbeff5b44937490a682631cf67e76b3f14e9b1306923f0f484644c96e302fb7e86682) 0x1f79f5db6aa7ef7a2e69249d73a241e01223123f5cc2a7ee7b83a576b6a65f875d43eb6d0e913d32837e078d59c4f9a;
  Dbl2 0xc9915a77305c5daff3572681f8e4df7371bf39b3de47ef6a17d8fa8530d1d4c6c79fa87c9cbed6e5b89f6709319a6f9 0x865734733c5cea99b1c89ffeb4338edc97d8dfe4b45b54356d1da942971bd6a7850b66e9d709f5f12402aaa967848db 0x4109eb2d8ce3ae3419a707679ecccbf5fe176ad0b84472094041ad8a25d13bd68a20915235f539e51d7df316daa2333 0x92e847bb4ee4998f30f87f08bf0f519d47500760e7fa74f3f60779128d892f479ace62a27a2c4990fcf10c851aeafe6 (-0x36467b9168e0d282e0f5b5b0f735c7096b3cb5ac599e5f51719f50adb8f82302fe7d525e227c6b401a8b1ffb54223eb) (-0x822a54be29617a56ec7f20f705bd3fffa6eff2b5abc42a03d0a67a7211f1aa230cef2b128030554ec700a9f8ada7c95) 0x18d4c0ab02f9f8e5e8264c315238c41ff6346fcead5ec9eb0d154019097e397b2a7a04058d31be1a138debcccc73d1b (-0x40529e8791e0e891a775aff314c779f460e0370765b77f1ac69a28603f33b84ceab444f4694239dde6366bed4560dda);
  Dbl2 0x17e38fc297dfef8e4fb4393fef13cb75ab3a1b9c7d50d478addfa2be069599fcfc0fe0355be714f2dd7b8a214481ba18 0x4afc3474368f82f326d561460031396ec3e18c535eae11bd67f9720f8fb1a6a59db93b71f0060bd5b04ae7f3af12387 0x2456263342bc8e75435644c0146d2ea0ba7cf6388eae0f0b6ed2c58c7f1339080cd5b19450122ff40fd92b5a99440616 0x1ba8f8338efd60ad5c9b0dfed458f3c835b36def60de51c585ec7ad6ffce9b4f834c0e6a981aff065388b968a7e82c10 (-0x1519e019027c9abc10c0e728c761881d48d75731faebf8ab07f8496e903c6b6e28edba6a030a3ecaecf338e0def2a3cf) (-0x89c5713ba2f32936e4d38b4d32c746b1f339963630587abcaf247bf283c202d9156d6ae2f870884d6776468ba76da87) 0x3d1d918794275a3c2cdaf96b78345aaac22ef32a132d8ed464b83b6afcf634991be3a4b2c25f73e5f4d2b7fdb5ae0a0 0x122de79b120deecf0052043180d7555266a75b0d48ae31180f842ce815a6773499972af1c1d20cc649d50161f25b8f6b;
  Dbl2 0x9175d2c7fb4bab3520a9520e98f48d47b896a72a32318a67d61fdd57a7cf0a1ad892b56128ba24e43357dbac1e2572d 0x12a120cf682a7abe59626f4046e057ce067762dee93bc13b6517183dc2f5cf3f0caab0a96c2d081791cc1a333c39b837 0x1edde768f0c3b6ee4275d222608991ac227aa11dc1dbd84be137a94f7256c5c57017ab5d6bb3744df1e4c007e141a105 (-0x3169768fb4248bf9241e8cfa6165fed713c74b7ae9536cd97d97bfa9354d76cfd270216fa6c78c6e86a5c93b28b91258) 0xa2af0e5f066ceceb08d4afc3b953b1c2825930f981ace82a4b61c76cea47d9949aceab8f4e26da34f161783de8b4fdd (-0xd06a63b3c5ff5f8dabb6e776e5a7dce0459b36f110aba49ba7eee99d61c048f1d5d53e985428c67400c4eea36f35d2b) 0x2a9a846f33c9a491033caff8b2d39bca9f53eefa3f3f36544c738dd90100b189ba33c94df9accdabb8f4926bc381f20 0x7cba54190439713002e54f8a93282fe1faee0d7ddfb639fb37fe376bc395cd0325a372c18f8c515cdc9227c535c7b33;
  Add2 0x3c9aee83c02eb19d4cd1a2e107a6e7438a68df1193394374b372007b44006ce27ba76f885cd510e680f78a507fa3e67 0x717f418b99d23200eb9eba87056383c1bd9127265f72761cd6c441f2a4dc59c33fa995ab622743fbfe596036f209a2f (-0x54f0fc10528ef90352ef01cc7d4da8ce3c01f83eb3ce7ca89afdc97dfa4a4ec2a74ca9cdf89f1c1bbf64152256255) (-0x7cae6e532827b4a126860c6470f93b5114c0b69b68333443d103e7cafc4c18cf8d515a4031545cb45084baa24c49a86) 0x1621eb7a756a6cd85c5eae6bc14337a87c29ddf3adb947ce535320c56293d7ea9dfdb2f4432763b837a594a96b7b88d (-0x211080c7759a5075d6518096577e89198d5c067ef5f7379cecbd04dec1c66ce9eb60b80020a07a18db0839cf5b3df8c) 0x161712c637b0a4c40f8449369737d9c97fffb956f948542ed012a4b645714cc7b41aab8a611ecc820fb22fb7081484d (-0x3c45da52722c67efbac9447dc1156698329ff66df9908ec791721e9328961f3570ccc46afe1351074a11d46418ee55);
  Dbl2 0x12d7aaae0c9330ff39b7da32baafa6d7a1f0ccf978154a9798add1254f9faf4ce52dcbc8c8690c7498b8c4e0afbf2295 0x31d23acc803163df80b9b4ad55dd1a094b41b79ed41f8dfa808443aedb6469877a106868462a16a525be5a65ea95d84 (-0x675895cd2250fb3b680f456da817574d82540c7c3fb3a5afa8ed894df196e5fef6c2ce3fc62241df38f23d03a66c227) (-0x5198e05e7c8cb324f830dda604a8955b6b73dc4d5b123496678c3f7f0c57c36c18d3f6e74e99552a8eb45fea9e075fee) (-0xd47be4ccaeb63a3679e08208f470575298c65956dd49ebc89c4594f826f5be27adeadab66056778b299babc444b4f9d) (-0x483340aee4e9357a0470bab9bfa157a2f1847f0ba8c9d6e570dc27df75b391566f961122f9bf84d86b30e9e6552ce3e) (-0x921bf73c4b471565c46734833e7dfb379872a090499369c8e7144c3b6a060e81257468a214097fb75eaba4a9c95d835) (-0x4f5190fa6906701ea0df4a8f22c3b980545c3fcb1a249919a7967a5452c8400786d9924d5ffc3811f2c0c89c5f30bd2);
  Dbl2 0x7b855933e05cb26a087482f96014da77295aeeab52a7964182f2f3ca2f38ba7972c7aa298a6fb527cf871d0ccc997bf 0x153c78ad3e2c5a82b420dc4bd4d5a0b082fe6ce091c4eef2ccce8d25026ffd3d18c2c92339183153310436725ac7de87 (-0x3f81f5cd1502ba3386d8c3a617e13d021bee414f7e2fc95c33c0f5836e51f3b1e8b16e9f0213cada935ae65ebed4cf6) (-0x1157b211e293d464a7a23c8f007d26be57c744c906e11448433f7fd52e68104be3b7c3176c49891f6ae7eac28cbaea42) 0xf0cf1e6faa62d2f56cbc61a22fca00b3eff5f298021fa889e695d15677032d4381b71f1799391d6772bcff8dfb7b0bf (-0xc9bee9aac4b0eec81668a26d67197b362fc334304dfeb924d482e09735d8f623ac267e9532b76c481f2a6904851d228) (-0x9e86d11451dda4abbe30015bdda1bd7a2578abf1a1251cf08e3bed11e36bd3c9416257fbdd315f2eb2681c9581fe0c) (-0x98fca3eefba9dc91d1f39cf0a6fde8ae48c18d83d5fd06d591a396229a27559c5c4d48580dfe4e8b692906c636a9819);
  Dbl2 0xa39c8d8c83498c07e063a1e5175177ece82a4226c950db03594db3e2e3cda816b5ac1b8d2258fd9fd8a1efebc1faaba 0xa340242a8034b01e9ac78ce5e4187e0f1194a7e6acab2a70a793311caba7fe3b9dc30e808c94c5d69942cb7cce8b25e 0x11f6dbad67734770db05e024640e9936dba16a6c0a341cd21487d171bb21dc2542153e95cdde633b01ccfa453586852b 0x1a3526fc8cb9ae6b327e20a7682c7727e9affbdeb9886de69b476986f497a62f21c096deac72cf1bfc7eb371358eb97c (-0x48993cb732d757306bc668484a33fefccbb78e2d1725e8269cbc293578d50524c3d70624a45a8e4a5839294526a31) (-0x806429122facf32bdcdb55056a69327b29c2ca748862b73ed1cd6d63de1bb529e2dead27c6c9cdeb01884ecda3ba5ec) 0xf17613a6184cce04b7c9ac7fa34634bdb4917e516df441acfe786f97eb8f9a2428345cc15ae2808ec5669622d43676 0x68d4a031c33401ada44cfa6e3a24325384c66dd831ca0be819cf835715230d4c8d348d2553047b5d78574d85dca399;
  Dbl2 0xa6f21a315ced02af324e2f518d18859604eab996832b94081fb1f0c81d2563c8ffb97f316a0b628a2602a2871019b60 0x20c2bcabe3234bb547f19b6673f57a152098c585174979c1f40336d654a2d6808c8bfa3afd040691000215360775930 0x10b14b700dc29765d1c41a402f63178f47575753453c81edb6a0ab45223fb9b3f89b107e96a1e22c194127a75f5d64cf 0x78ec52121590141e1de8dc6bb4a6b702eadfc01d6ba6b24a59b86077c89ccdf857aaf6839ed151878cc6db8a8365a20 (-0x40682f62318cbe20c1617657a68f8e6dc9a8e8b1a7d152a944de28c5eea62b2d535eda506cf6af56e7b23499e4c63d1) (-0x1a4a4fae29759ca973358dffdfcecbf54a54875efa2afbffa4af7ddccadc28e19374a0f7316913411e0c440a575e4ab) (-0xa12c9934b28dd106313d64d35af03a44b7b4054f007aa285cb9cfb0fe83f855762431edf6605166897e1c3e5852a51) 0x5b3550c7bce545048d608a9e992f28019cd05367353b39737852496eb69d708e1b7c0c9d2fc9e2814d25449904a96a5;
  Dbl2 0xc7ecf53f2288701c6044cba381d28bed937c49e59b8e018b5b1d5d65b0632e75be1fd9211923f41f6856e8972d6c00e 0x15ec1dd19eb6faa9f4b4a82888d1af25b94af810229cd85c363f866a30a20221d8cee2c2fead78242a2184e474ddae72 0x5bd5e39c13776e728335c44b6745a56389df4635437c7d10bbf2ea53203999aeb9b7dffa10d9bca2f174d8e14f5046ac 0x14e1e2587473e57768993757a513c2e599c27569f17d136d33abc1ff54d63627a9135854fa130842ef12fa321ab10bf2 0xc7a1e327761c9067e8cc1bb7ca57167f73cece330fb86407f16b92dc8a390377d3fbfc618ea81f969f4301d26aaccfa (-0x15116452bf24b214bd28512aba1ce0d39d0a30485cfcda3ade2be49bd7301d866bfc5c8e3f18119fbcc203ab4f68bec0) 0x101ed188418734ab559527a3ca8efc324f255c9c4d7bee178180ecce12ae0877f3129f8b70ff8ea089bb0c5481cb35ef 0xe3ef7c558a92ab5468147b4a205ffe62e36a17f316a6b06707b1736002fdeaec3c4eb725f68c59bf09a92823499953f;
  Dbl2 0x14bbd2d83434eaf9acef283f070a37edbaf66fd4ee498cd94477a525c70c4c28f1e64576803fc597bb42e369e56f745 0x1e0cc40f027d58d7e76b2806db76b0a56856ad233728da57738e574082cced126a331f1be69de415a82301cef54175a (-0x226f451648bbc3c3bcb78773d4419991165ee54e720aeb7632aadff15e78441ce19c7b7c6b43154120dd34542c050af0) (-0x68f28be2a7e7a2348f35ae4240168758806479bf4d6e310326227c6147b581e3fddb9eb596225424fc79cb7298cf5686) 0x12318d84f7dc23f8ffb99cb37757a221733d667587b002baca4984ac402608af6c2a86183a4a8c1519331d50c845a7 (-0x2feb3642f79d5aba23435d1d0cd6bc0c600195da515de6ee5d7f40cbeafa17b239b75c7b7cc5649c094f7053834afa) 0xbb3ccacc3e60c3f7887ced57986ea1d7e888ed5d13513a9725ac57e254a3ea7099c492ac40ba79de196b6b17302d07 (-0x1be59aeee9db868ca745526a8cc680d29c619d01e3793556897f152b9e4aa0ed05deab7f7a5a4ef56f810799b4eaaf8);
  Dbl2 0xec03db14400288cd1399da5c4d0346b40b3c640f7016050639fb7e881a068c23201d5fb5933a4b16e82bbf732f075cd 0xb1ec6848632d56d900d6b460a0709ad88646a183c7a00c184826da26f2a6f313c7e58252fd3c8cf0c5f23ae20073210 (-0x19af96839e7d8a23a82ddc477d05b5f65d298bf9255bcd585b86d8e46c3c276c951727394570821a23a562d7f2d0e6b6) 0xdb2184825bf8513212c872226706fb8089518e8b8376b71bd6404ea03793603d1ee2997e261b12d3d533b3eb8710e96 (-0x39cb6007179abb96cf00c3d5c73eb6cdeca1709aff3762a80b4eb8fdcc5cb60fd788a81e04da891dfea2f198b4983f4) (-0xc9daea3dbe38077f256772ff7789ee3f6fa9ce08171c85ec7c04bf2562265c41e7b14eba532730e772c3cd96772551c) (-0xe4a1599b5cb3207798b69ac43c731f1bdc8de65331a038740fca0f2b58609f2ded85adadbaf7ebfd153c001bf7ec4d) 0xd9d0d289a850c7ae5f4b765272fb107c773cacba8624ba8d44bf2b2c9398fd37788f2634256ca14b9a2026491b17747;
  Dbl2 0x899b3ea24d3feba96381b5d8ffcd4a7e8ee6957d1e8b146b64826de77cd7e4ab973d750c777924f91225dc17e3aba97 0x3d4e56bebc7dda76669b5f4441e9e7e930147f0aa8dd0b4a83acbaaa8e04045aa35a601b5c099b9bb9f7c2fcd98f22d (-0x24fa178b8f7f9a2b689776bed42231117969c6c1b0f43405894da3c0bd416d1ee9bb378b885c9f121dd5f8fe74e5bfcf) (-0x566c0230510cda701fe0baffe86369db61e2ca59c9e7100c4467e6c040978b47b6cfb1ea3d1a47606539704a268320aa) (-0x247a40da5712b65a3141e584bdbb3c54f0c9d1ddacce2a4eb1b9985c3fb7b3662f7ec9af04e8880a52d0a376f55ff32) (-0x288d3985e64e8ef2528b72b55f23a4aeb946b0539898fd549df2f6b62da02ea21b8c784c66d489d4fe6cb72bb0b40d2) (-0x87f6b7c2bc517548649b29e598a6fa4c63be0fd359b5db9ea698747017fa3b99cb153380d9e3f7401aa683c237d137c) (-0xd4e1da855b50c489df45b6f45cd12943796f696273f88da4593232c54524c60ab6c1e0c57af687731d5333efa2491b);
  Dbl2 0x186f60e08cb7212e9df8b62be86d487ce24984653b8821235f1e95e80eb645242715836b436eae23a3385f4793f96be1 0x62a40b3f8dbd2bdd829649f2faafb8519220524d31eacf155d97b0dbcfb380dd1bae2540ee15a8d4532c44e7e759668 0x421151d29e2103cd86cd1477bc40f3bfa2ddb508154be8507f2eda4139ca9836c8328c2c3b02c9d8f72530fb38cf5100 (-0x1984c7d00b75834b954e8894912ca21186a66f93201af72c9188788291583eb51d924dd7815db67c839bc364895100c) (-0x157fc119c69cc984c29406a6f7f42bc501559dffd78c9893724f892a47a48e14ff0d8f3cc07d2d39ab4e933006b4b0f8) (-0xb960a4282d64f215e7a0f54ed622f60f34df02677dffaeb87fa18074c731c70463d1c80887959264d388204e7a16d1d) 0x9263db6f2fde487934ff290e650ed81979fc9d9b4fde3926779364f1447159dea66e987ac4c9b0f69f5aaa5f76e7e88 (-0x2440d558e3fa7c711187e346e5b3069c062bedbacb5315509aa37aa5676311f755c120703abb85cfb506b6e1e4b1fe5);
  Dbl2 0x111a5ee0f0012b4d5274b31d6842bd0e859cc622a0260e68c4744efa9fc90598c2003eb8bff08442e4bbff1a520f342b 0x172b49cec64d9adb013a3432713a50aaae9ecda6fab4779868b6e5e3a241dcdb3d943e6444c5d9ae5804bbd114f1910a 0x125725a387bb26631f8d2a2b5e3ec3cd5772d0403dec179fc177c46e79105a647658900b248b2451daa01fd4537ac746 (-0x213433b87996e6c468cd5136d6e67fe4bfab37fe614a0d7c10e5c7bb1650e21b97edc0fce2e5c401825564f4097d081a) 0x964f83fc9eddefbf39fe792945cd8b0e464227aeeb0471d7774698a46919b8f8b93f9fef32e6223ffa9299f14627907 (-0x1e7a0b6b953f20ec521ba37c0f20d4f6ead3e5b05408f15914625480b14e2466c5b1ad069da2b80f32f0bf9c829bd860) 0x9b4d9c4cd6f0b7921dbf79333eea8678f287551a8ba7c86f7f37c63e4049f599fbf42f073da82a4a829df4126c7cfb8 (-0x8ef752f52b0c11f61a764eafa2d55bbd0c980b842fb6c495715d1270b313d5b82c74d3294fbf5e1dcde8005fba4e86d);
  Dbl2 0x54edfd5a706d459d010c2387de82cd1aadd3cbaf0f1d2a923ba9fc7a601e360569fb73ab066245f84de2845a0a60514 0x68b4314ca174fc3cb65cc56163ab8b4799789ffc2ed844ced9aea5bc1131d3284923406cbf63bcb98c287aa8fae7bb7 (-0x41c842216dc3c49e47d1f261ba085d66afa2c85470749b868c2f17b72cdbe46f657d0da3d2a63917a13f1faedb32688) 0x2f90595488c62c9185328514d181b968ac87aefaf229041a2229ed862894edb59865414c8018a3a97d1d08b0d9d097c 0x9033bbed350e6e7249932344cb8365600e04ab2b9e29f7be3a15223d0c9a6b91b5af8b49e5fdb43ca9d46430711401 (-0x2abecfa8c405735879c3a7db716d4ee5ca7e1c749cdc4e3ad899e7e6f67f99d81ccea823c1443fcbebcb820804cfc12) 0x5fb529fccac578c3ed95135cdafadb8cfa3ec3494285e98746c04f33e7671277b309a868193d0304798b5a28e0a391 0x242a35fd576a8a52d65853e7b61d9cc030f241eb6613713b181f6ad7b1ce8c46335ca70e059daf3d86ea5dacd4acd57;
  Dbl2 0x5f65a6948e4adf82c357f9b2b0e710f1b811f7b039cc51b0863c29153d6c1bec3e302de3f40e99bebefb15a2a69aede 0x10ee1517e7c9578edb59f26f3699549fd9ecc6f99f21344d193f7c3084230f7a1bf64fe7026f92dbde9d56cfdb816c94 (-0x119a5acb8c91bca3f7cef0d032b5aab3f3d502f22a7d11b2dc21706fb2e627f040fc6a073a52297b6a22549c87dae664) (-0x7f0c7cc7cd57aab8b580117b5844a294feb4444d16b4725a5fe8c56a49e4129eb6cc5adcfee370efbd931fd734ecaec) 0x9a7bc49f3c21733e344bbbd2993b83979b2ef71271f3bc644791fb9c2b886243a1dc359594e1311879a4f619aeda2cb (-0x7c3768c580bab3068ae1f84f6b7234a301bc8232671097891068f9dba4bd9e17ffd54f5464d141bb394b5dbc8133d5b) 0x261e6a64947f6356d38d69098f8bee89bf1f5a11804147e2599d3af7eb14f4f3f3c1f3eb768e7d42127494badcccd2c (-0x79ddf71ec8d1ebc6bf39caa7e94af0f74a4c98aac82a3be2127c1dc653fe463854bb0ed0abd8100b98ae8a4be05f08f);
  Dbl2 0x9c90e70757e7ff8669c5e68053e18bc81e6a8c54f5c153b00846c87b2c7939652119c10d5a55a3c37eacbc99b6a6235 0x161fa5de240e022921ada4fb8149fa4103c9a9e039e49b31fa29117bced648de18687c501dd699765b43a79fb0b8cf 0x97350a915935cb66f0dcde0be4ac8935a51b94529c1b9ff8378e5e4c5199f0d4315b2f8da0489a1464eff770cf2264e 0xb54cf56d3b7afd5d332f92a0c75aea5c36e147f9b16a553423631bc50a61d710795765f565ae77102cd8768f18cdb3c (-0x3ae945e689ea3853ad4376afb3be3e6ecbc88225704c9ca11d0e09931f1411859920f8cf07a170956ad496588fc7930) (-0x10a6768c1f68ea56f4d0497a52957fb053c7c56713e2085bef1a26123f5887ee4c80a4fa1e6d42a9eb9706d9861130) 0x5736651c8b12ef9ab1b13d880dfc22f6d8ff600bd2df01aa288ddb9b05ffef9dbac51d24f2659da1c71a02aea3f50cc 0x46f24199f94952b8c89b423b5f7575f7b41f597a168cca66e16d2bdd82089889670509a23dd6f3b8b7ac0fc0e35d5f0;
  Dbl2 0x172b91f264a25b293d913c3989fa7da50f886dd06eba3cbb99623f4c54dc1aeaf3915b835c639c1e45e336b1a8a91fa0 0xa4fe3bbfa1f42df3b5358034cd5d2d21a8bba280e58e6c8efeb54896934a923422f4d5c91ef4bda9e46581cf24d2765 (-0x12c9f554eaa41b662fa00dfc6104e9f27b6d0d821a228cd9e2fd1e2deddf7526aaac64dc72db46ceb127c2b501f3b9ec) (-0x15d787b040ab02f7e19363e126f915a7ac12578256b3fbc752f5957705f4cc24c2cd8dabe1c46b50f6bb5f3e1c9fb8d2) (-0x108e46ec5a441ac5e5ab098417feb304f779077bd68b2768979ac83067f1199229308e9ce67a8a7dd7daa61752d07d8c) (-0x126061070f07b2f3c512f3d02605b8acb5b1665f73baee20cb933d2b2832620d7da4b0919d75af306ce376ba761777cf) 0x32de74933c759659df8f720446bf48cb864a27a4ad048e0e71aac88a5581ba8b31646400a02bdbf81f774d75381f8b5 (-0x3062da26e4be773a291e23bc16d509a27ac809116c00d82f24d8df991d53ab9eae3da39d4de7d85c2a1d20de7ec3074);
  Dbl2 0x1784ce69fb6ec24f828f5d18ece52eec202b1e5577c5d4c5b75b2aacd03767740dea8938c44b60c5eb224bd3f8e62690 0x316dfacfbd27fa9b06f8294abcf5150bf050f4e5ec344dfc8fa14c8dc458c3a77a2c86e428833493c0c7829678cf4a1 (-0x1216e25367d01b37f6528a455ebe2ce705270c688827016b47be5935bf44e1448827bc1336a7021e881e76954bed01ca) (-0x1398aa6f138ff913af932333014cc25d57e8ed7e49325c0d06c0b5c21a8359e27f2bb939105bc0050966b7abc60c552c) (-0x14e765bf14f799668f8516fa0b55bbf590bad6b59f00e4e9aa8e0b3913382ef5ca48129f53327f1e558efbb2d0ab7902) (-0x596918e2ac470d2e8eb5c454edebaa1935c5d348ce1c91be227f0fec29d55242979656883f54001cc93c300d0872d9c) (-0xf099be9d22a21ff4abbeb049cc44c107ab720ba56ecf6e2013cc56de53d7940bc05dd1e54dbff803c13db9038aee1e0) 0x1ca8ea787912d79f2e7af5486ad68ec9334c89bab602f2cb2b13992038fe73dd7fc4988281ee9ed7cfb926b5fb5fff7;
  Dbl2 0xff41a873e7ef31d618d074df5600be4195a2ff0194ef4c23da8db965a5e2720c7970802256c2c54fc53ca62073b2a60 0x171f1766516b0dee4172c3ebdf0c97d48f1843949a54f00ae2a403593e7522206ab1ee6d9af63f2d3869d4168c286b7a (-0x1121f91035384542c740b699d4d8e37645ee2a38ed50b363048f9100199fc61b3ef136bbeac5d47553984bdd276d5bc5) 0xeed4159cbae14e9c0eb7477cbf991ded60183d07f05af7648a675ebd192c0bd57c40dd5b434fbd509faa6fe68778fe4 0xac5548d383688943e0056cbbcfdb155f5512b55f59d39d2bf7a44b270e5a8f554f98160a9c15918d7cc99671820e4ca (-0x1c5eb5a1567eb45eb9f4a7ad98c0374e8f5bf0c3126a73a5fbb13bce06ef9c0b4562aba2461118a4eccee844663f6a2d) 0x16ffd10e34acd4cc17252472ca0d62c208ae5da2821cefb2207bed9433610013a99fd987d051577d3b973bb8ee2a1e86 0x416420c85dc99c6ed8f29125b852de48b6ac1ec1b305a13bc4a6bbdd5988b54d71d59af4d3cb6fad7311848057b2b52].
Definition tU : Z * Z * Z * Z :=
  (0x153017d3d9ea94ed7e5ce9712e7606b12f139ba1f195a454e2d64082bd7701083c62d492a28dbb994813d858bae12fd4, 0xd8cc0000ced653e9cc9b234a8d08f0f377a26b543a3c4c7d181995435f319abd398a3e2d7bb26abfae66d74150b05, 0x11f3128ef48c3f7ec23ff4dc29394a4286a0a388d621cf263e26f2dec14c69411389dd5436a5b3e21e2d21ebfda61dd2, 0x11162be5ec367b2b6a23e5cfcbf2fe403f73dabc40ebe09dcf39c7991f3e12d22f7516e984c6e79787154f25167893e6).
Definition chain_D : list step2 := [
  Dbl2 0x4ce8809320ae7e43252d429d0e8e4a9d41a627b53399998d95f02a7c1ba07530613515346c2cdf51725aa6cec94c319 0x18e9a5574dfc1e3df6f54a281f1aec40ad22a085d0592009751ec92f9b4eddbf7c7d29133b2ead200d36cfbbae5fe7b8 (-0x47857147252c9e733c3f86950d3fdcad565ef11e06db9db03824d45a51ecf608b1505ebb4a8b05948e1a440a8b8950a) 0x986503e2694776cf2a29ac834531ad47c68c6c2da42eeab5826c0f0309c61c7b6448922a35f414b406be9b6385320d8 0x16fa7de38302e1dd0d8b87185007bbe9ddf852bd550d2333e996878fec65bbd883472dbddb079b4d34014c2ff52512f1 (-0x935c314b68badec545ff4478bd4eb3c16d67edf74aa195b238bcdfcaf49d323dae5fb99ad5c5006f0063d75f9e044d8) 0x1591c9441079734ca2cde76a7d116b1832c77de86f926f3fa117f109b661a1612de5f6b95b9fe8a3d43140d7f5ea15 0x746c19313e80a6e1f6429b69a6174986ccc05610144bb5d29ab24991455689837a6b99636e78e0cdb18aafc0ad39b1e].
Definition tD : Z * Z * Z * Z :=
  (0x1064363d3e2b482c1a3cacd5bc757e2e3e71686bcb7e9dbe2e31586bdd866d54b19e4be62ad057e78079fd96f420546e, 0xb5637bab62a532783246e1589c20ce253729c5f1cd2c07038f3b47f72f1b104fe2ede17b4efed4d80d5a30ebef6a83e, 0x175949160a84a61a73dad085474466adaf4eb19c772082f3ceee04902521d5182ee845182e949d22f567d4a83324f8d3, 0xce125b20c26a64eb6596958e707db85021826e719876439c350a6eb24c766b348669cefec48fa5aab1761b598bc9a4c).
Definition tD1 : Z * Z * Z * Z :=
  (0x6b567e9ab342d9b9aff5235708447bf835b07acc8e0f6ea1dd71f8dd51f7b3a389764ddd65afadc4a808dcd5faac928, 0x645197b500520766fa47b95a6627e8ce3f290f370a713612a20453fd625b79a02471713b352b4e37bb3c5d432dfe867, 0x17aa7fa0865e01bda31ca1ffbae391a5d8141cbbee158302e684d24f62b1b113c5fb494e0b5edd21f2b4b7898e171873, 0x16731ecf0efccd484de4faf91b2c9e40989f17fb9092e942a411a08923d6f589647c2808276f518902cd000804bfd2d0).
Definition tD2 : Z * Z * Z * Z :=
  (0xfe1f5284b59bee4a08376762d38ad3609f8740c98ad8862631fbf74ef5040696f54cb2c39d65cfbb538c83d3ebf3ea4, 0x156042192e89c10e62f68bd62a0de7b4945fb6d29f9349394c143daf58dec059591486c4d2bf0d8e83a9eabea0b3cb95, 0x2a7c8d42efb407fd740d730fc074629b52899e87c648fcb9842ce10d18f210befc3bae682bf62dcc4972b57ccdab1d8, 0xd1fec382d59404b94c23e5d5c43d152625f249dd9fdae85a3e02bb5d1e98f70d645630ec50b05a50ee79e4a6743105f).
Definition tV1 : Z * Z * Z * Z :=
  (0x14c987fdbdcf9b0a73f7796f078fac6a1de005d1389152d7d132ecd68340fd6fa87147f74c83b55425e4dc8d6bd84647, 0x19a9f4d76902f9c90093bc222c020511b658d937f8bd05b11154cab5d164f220e08060916e9fbe6b58c0f6bb000e246a, 0x390e3cf815d80bf15a1033769f81ac27d38d3822c5df1ac82dbad664cc380b5f90a58d30cc6eee05d242ed08e75e62, 0x1c38db5faac6b3191f88b1a5720337ae4c34c36468bb1ea7839070fce2e628482590a4cc87a65f58b064d9aa5209192).
Definition tW1 : Z * Z * Z * Z :=
  (0x86d0dbad0af62f05013fb0ca2002a3448458f8c65937aecc4514cc636a7b37339fd1631706b7bd46c91218738e51edc, 0x1601ed26ab3d833438006af7f5343056edb7809e114efa7d3bfcb694876af72b5b582307c31bcd5ffb2cde7d4ed95f1f, 0x14c161645791ab7f41f114fb015787bb63ddd51386e7216e5b032faf081224fdf915ad1788d944d70323df951cdad563, 0x5ef507ca023cc17393ae3d83bb7d6052336afe37fab873e5ad9081aa8c78ae1c1e5670f56d59e4c9714a4596d30bc8d).
(** X^2 W + X W + psi(psi(2 W)) = W + psi(X W) + psi(W) *)
Definition add_L1 : step2 :=
  Add2 0x197a85bb4fc51461a6051a75ac8e217e01ef54922cdf62618958256189e81c1571db797ab3de37d2a8b3e4a7012497a2 0x1731da0d04d340532708329a730bd9c318c8dd892813acf7b493f1c6e644f74dac6ec85833e16ba222de4fd41be161c7 (-0x1e5b00d2a1b58297dc14150ca6bd0c325954fcbde1bf6dba23132dd30ca4f9542a7a0470ab79abdee226925ca1a846b4) (-0x58923c27bf76c62649b2dd25db96acb9394a76d0c315af3e9e0a879e27bbe801a93509ef8811c476f6796e18285f7cd) (-0x4465b8849f526226afa6b33da51ff4bcf2c1815f55bb7a3fb25c687ae6867712fcf719cb5397dc850154f68cb8ee43a) (-0x2d73ae5066129834fe53f4684d015d917e1abeeddc7060e1eb1ecf11db125094054446e380f053a599822bcf45761702) (-0x93692688cbf001ccb6a84721e8ee467c0ac8ec9111dace53f74ff04727047a481e53fdef9a7971db34f5b4a756e17b5) 0x1268f6e3977e19c7b4fcc0a300e59983a13a34a9fc787fbd6e2ca306b2eee874700f53b58e3851e3209eac3c551468c2.
Definition tL1 : Z * Z * Z * Z :=
  (0x19664cfc10e1fa378bd8110e806d0166daeff4476da650705a7a6dcf7ea6643fdefdd5e47be292cb5981e41636576da5, 0xf022cecafaee35f0942b97fe2f2a2dd53c4e35363e26ce9f399bc48c30da021ec0cf407a8a9026553132ca32e00e837, 0x146278cfb4326be0a4fecdc38853f0d7d4d8f43b0666b0bb5dc29f070b752e87610238e784410bdd776b3e19c03458e3, 0x1197630de8bd9271a4a93342ec3f27e36dabbac245cce98ac3df7b670b7c0748563a38824f1bb44fe39dddaaa92e8395).
Definition add_L2 : step2 :=
  Add2 0x29a4057f58cfa5e91d773b0c3b40bc5df6a077f8524d5431b1964e1b3f46898e04581d36062320b48dca6c5e8bc97e8 0x76265020eb6d565e7291518c7b21d6ee35c795bf163af3a3ce6223e6d68e022ffc27cb837853475e8d24d472f84cefd (-0x2c2b98b5d5487b29b2126532925caed375e35ecefa89f03622dd272ef08962ed0b11c2b9ef456138e4bd98fe405a249) (-0x210b3a96ebbc3fceb587a7b9d8c770aa7855745ff87afe42ddef4ce34dc3a218f5d6a4190f186f4670c34920372eec5) 0x1d621c229e8da6fc54399d573ac9b2c507f871d0e588ccac738a945d111c14ab8236d7baf08e1956e53597550fed153 (-0x17a63583c25989d134b116a8f62edc30b226ab2530c062d6d0c6a15d38f252689485a47d9bf36d8b8154f63a007045c) 0x3aaa234607ff9e6c91d62a5a1305275742eb12b64f672855fb6be3a6e0251b283984d6eb5cb960ffcc85f5ccada95c (-0x18c6dd896515844decd81825b1750e40653cc87fe6fe6c5d6903f1fd1a633cb55b0d67e2bd905bc25d3a012a8d27b4b).
Definition tL2 : Z * Z * Z * Z :=
  (0x14cd47783f50ebd2abc081672c37db73440ea2170090b1933c0dda533102874ed768b98128550968e115a9eaff6ca05f, 0xc94c1bca5936242974080f45e445daa7776b5cc1c55019c8a33bc0a2ee6fbc166c6a7a976ae354894c19386088feb50, 0x19299104615b445275cac3f0ad68695958caf8ad4f3435fcc1085ff49495506f2c73c71b2c2b9531d07e68557e55eb6, 0x13e95cecec056afd6c9ae43e1dbc5e488d8956cc555b0815003b7e83c37444d87f18ef6c961713f17b8f6614d62cf7d8).
Definition add_R1 : step2 :=
  Add2 0x20df803e99982aaaa4dd35fe0c540b43215f4011ccde8f86add7f770037689ad83485a0c6bbbc8211aecb64eb80f2f9 0x11cdc8d40fa0b04eaa36e992e6dd6836695d27b15ba0a96fc8f7e1f95ddd2a8a3ab7f0f995fdc7c8029a97932892ff10 (-0x9ca8cc935c5c9dcf5d7736feacee6c1dcaa54edf8bc525681c9de13c00352d41077fa562ea2ea02526be4169dd29d7f) 0x945681abab77018630a485a8dd28b9ede682298e23ce4352fbc2fda910b90d7aaf3af5be1cad641741de4f81992b8b0 0xc06f211e9a525e111b7982fb9051d8b3c5ebedc48ffd4f6187c08a7d87c299b8cecbe354fb859958427e77d948761be (-0x2d03665e4d361f27dd6e4056c2424c63b221f3e4d2888b705d1cec80f77ca19c93e58e9e8c36f1bd36e40bb9831448a) 0x53f6720118910b2fee1e2c245aa60f5861907257827263f1d53cac7096f6dc562f7a6f8c7841aecfb2afe2059a4897f (-0x2c2b16ce96e3aef452d9c80f9436306ea6de937bde015d48ad32e0977a597f2746532077e3534caf61b16da171b2bd3).
Definition tR1 : Z * Z * Z * Z :=
  (0x5f245e08981507132bb0814a8e044338cf5592d6c6d3371b0788c97b6695fb12e3001f433476672ee85ebb592b31475, 0x1fc4e5315cbdcf58a06628d1d79de23998b698e3ea0d589b37404719e36867d983224704a69e14400ed1b7729511dd3, 0x11216a8c1a6343c7a0eab0927bf76c18026a72d364072b66e17c8119624e386a82384f95957be60ab0dd3f8e3a5d801a, 0x7db4991cb05c4323e4e7ce9d53a5e1339c75cd68bcb4bb30177290ac0eb9ad740b7dec45b1a62549808e23e90c93eec).
Definition add_R2 : step2 :=
  Add2 0x46632f9e1815ee01c36196a13925ec00753245d09291abe97ff19a05f2e277512927bab21d97422684e48d149e76836 0x1410c9b4ac709383344169a9473164caefb3a77f305d5f2bdf1ff914ccc73cb74c11d93607908abd82af188d2b6572ba (-0xf07b06874185f711a34769d27f60468e70b043496ba47797f054c2368fe9280c78c29d3cf512d72025b425562cfbe55) 0x54cef0a2bde85b0ef49d1fdd9afe1efc7b24ad0bea14823b136cea53ca22a0d0af9926db9a6654b36df62be12ebbfb7 0xebd2bdc5018f2fc026f0579a1a68d3698a3223248458ba9424cd448777f735650479e29c435696ef067d84f32494650 (-0x6ca04049a90f86b7cdb3778ca0e2bcc82d0b1fc20ab0af46dbcea57c2c82db26a5922cb66a2a397180e50296b815aa2) (-0x5a9a35b4a36cb41743a82068d1948f69ccdb74732d4c76ae850b37f4615498a831773fcf39a84ad5173b795ae238df2) 0xd41625b73d3c608bbb638b903605c7926272e64c2c087ce5835c7a79378a6b0088fa20083716682d9ef1b1532339972.
(** (9 h2 / p448) W *)
Definition chain_M : list step2 := [
  Dbl2 0x4ce8809320ae7e43252d429d0e8e4a9d41a627b53399998d95f02a7c1ba07530613515346c2cdf51725aa6cec94c319 0x18e9a5574dfc1e3df6f54a281f1aec40ad22a085d0592009751ec92f9b4eddbf7c7d29133b2ead200d36cfbbae5fe7b8 (-0x47857147252c9e733c3f86950d3fdcad565ef11e06db9db03824d45a51ecf608b1505ebb4a8b05948e1a440a8b8950a) 0x986503e2694776cf2a29ac834531ad47c68c6c2da42eeab5826c0f0309c61c7b6448922a35f414b406be9b6385320d8 0x16fa7de38302e1dd0d8b87185007bbe9ddf852bd550d2333e996878fec65bbd883472dbddb079b4d34014c2ff52512f1 (-0x935c314b68badec545ff4478bd4eb3c16d67edf74aa195b238bcdfcaf49d323dae5fb99ad5c5006f0063d75f9e044d8) 0x1591c9441079734ca2cde76a7d116b1832c77de86f926f3fa117f109b661a1612de5f6b95b9fe8a3d43140d7f5ea15 0x746c19313e80a6e1f6429b69a6174986ccc05610144bb5d29ab24991455689837a6b99636e78e0cdb18aafc0ad39b1e;
  Dbl2 0x115117bf004851facc6d33b64ac51849ab6cfcdff6eda6855072adf14ffcc647ab7672d71528e2dcea73738d94911e54 0x16ca2db9912319539267214b8fc5221ae6d5d1f84dc39d567456e89618fbccb4c31ea938ead7af152fa73aba0fd81d0d (-0x7a5b3565667bb0c672a9cb3ba6599e54e79be739485366ed195e53e42df1a5566b710f06e9451c72cea2f1326dce200) 0xf33d8e598c35062e6fe05e9988915a03c8be47abc1bfe7524a0bb7910ae6d0857bc569a272c1f6034ca85a0d61f0062 0x870e8f1be6372154dc7c07416ca7494dd0ab5b486e53fe35a4ab46a392e58df064e046658c4711f09c1aa63945258dc (-0x1e5a38c44353e1e39138cacd793f22cbd655b5d035a2157ee8cd4cc7edc9c9e41242ae6b389685f50ccf1fd6d1ff8ca5) 0x802277abbebbfa9100f9f5854ae1c8f08833d742e8e6e9ce2d0b7065dc06563ffbe49975f91c184642bff640cdd85df (-0x90a1f4e106f73984f2652aade7a1387d78b3e49fc2e0c67db8a188122ae00d459c6498f83094a9e2d91db10f3f6ba8b);
  Add2 0x12578c918203ef1032c8dda35b6dbf0d5c610145d2fc838332923ae70ccf3800d30d64cce7f251941393abe7f7c3b0bf 0x51eb039bb1683c645931ad10baedbb82084291048f117f224e3c83ab065e63b5d331edd90f04783e158349c70bef71e (-0x586c73f4c5aa1d18706f5482b24dc226fb3cb5faa934ebbb3ccd31f1c4e10883af8faeb200b7f76fc5bb5cb1727e3d4) 0x5a144922939ff378db98dd83e960fd7a12f99da307d87a4405f9ecd0860da7635b00b9fcb0c34614abdb9a22a293b37 (-0xbedf00ff69bfd07e6a26df5df29b1fa02e5d7a894e1e0ae48b3d639577b54e82e3d523e1fd7dd008142c06384729378) (-0x738fb6b66c2caeb0f712cb8376734c055fb4732db56f478dca6db58d0fc8057edfd6d472ad73131e500217052063134) (-0x728a87236baa0451ba049a2a03967a49817533eeb61450700d62047f3c83cbca25238fe97a4f43670fa5ffd9c9fc7ae) 0x45ffcb4918af0aadf43a6a2ce7e509787d31bf25dd5ec6142dc70325e74f6301605c9d0cd22fb0055c15d4bbb34507b;
  Dbl2 0x16e60be0ce9f355bdbb7c13d35d55bd27dc5414db7cdd27876f8007508b3d87c9a873c766a8c2018fe21006693010c8c 0xda677935f1de1a6fd92b7ce973e1761e9cd9b8807b310325e16bcab0ecbcae1213abb8608bd08b1f5e30f999d1b8ce9 0x271a35ffde909c7f441f85a72a102414f776ff210138a224f05910433a98c80e62905664a6b1b18f231f5b9c16a7ff43 0x95f7dfaf10a5e82022db6a6f165d0e907fb0342ad2bf756e9747ada32a47f21f664d9a40c7a11d983e1496b9eeaa07e (-0xcffa21fba230d658c755ac23b61f3810e73a234c5d51104beaceccc46c7d2e6981b0f1bd62a2a3d174e6a9abf5c45c0) (-0x180a470eee69313d53ff2020478eeef99ec1d38e058c5efdd2c14b6c71da24b378d56d130a7fd922bdc0e0d82a52e91b) (-0x11ee43e0eb5804980ee281c4b9bb8185d01c45aea01a7efa762ec4bdba84b902009eeb66d5e5bbe839a5248414f1436) (-0x8c12f8bd4c0d818c786f277342f23d12862fb255f959c48ae171473995739366c2e941f5829c695a5c038dc910b834f);
  Add2 0x564dfa5a12b3ab87ef6be8f1bb39ae674e4b1b0b30f30ed3ee494e7bc0c22fee5c662622df3bd4d9f52c4e24cf757af 0x132105d26b57978a3923d6fad9c3b2ab85643a827155b7bed193d46280effbbf9344c8f21a02d8e2fbdd967b663ef01b (-0x41d68118b60cc9b6c9078b1a6fa4a1cc46a8a8f2c6f1681bd36997334a3d540686c0edd59d2eb61c3a47d23b78fbbab) 0x772fb33b4fa5700d6216198c57697f3d64c59987a1dd01bac911ee522d9fdda1a9d0c29054e76f6b3dad11ef7e63bf8 0xcf3e04d5ab829002c4fd42930230714adb6b4044c5c4bbeae0295ff5429ad535f88c33ff403b91d4021fd79e3092c54 (-0x7ef9347f1b8536564b091e7530aa55cf023312cd438d0e86ae5f69e43ed5b8a02e59c4d1fe03f3b55d8e129b202075b) (-0x4dc6eea90f20bbaa99e18a9007deab6c0a1a2958780108dd88edd4efc75027daeb5367ee1fec47fc74fb7bf8c38c708) 0xb768f189b8264ef8d16dbf951150993a3a9649fd80563609163bd8e7d1030752b3fd9ce6fc3366304423af6b49bd670;
  Dbl2 0x103bc1f673e9ed9543ae737cb55945c752c3c926ccd0d4d48d6c7f5a349ce85c92e7c6ca0170c0b3f20a5c57a1e78672 0x19913e4e0521ca1662e200cf6f40b1fc90379e3bcd6eeb6bafaa0011542aecfc4886104ee52d3d1d1ca99ef9d2640ea7 (-0x1c770551985e30344f6558e3109e0bfe959c0e7cbe2fc2b14c47300bf6285b0b5a063cd9aa41e664922e23ec31157d1b) 0x50a44825143026bcda6d935fc3915788777580f2106691cd6ac07bccac218c9672a94a62215b910efc9c61dae28b31a 0xf01033407c4889eb084e99daa3b02a9bc1a55ca5b1753df0c354124499b3eda4b2c202cf4615fd5ec347b280e4ffa7f (-0x1febe5a6b2a7b67c6ba35f7ef92d0a7b8833e81a1e8587fe8c2e7a20923ab0741608113580997b1236bd99b3b475dcff) 0xa3c67e8257f8e216d513289c000aa77e5749e730ba6d93b4b791e665ece1e06b9a90928807d78a7ecc9d9b13dcaa4ec 0x999b1ca989b086106f6f25bfc8c772b98fc1aeaaa5449ab69f70fdf850fb96bdc6072612d60379e5abaf9a4f40ec69;
  Add2 0x17429ac7597b7708213ddd34551341dcfcac68cd2b48607fdd3352edd93871cdd905987e5e4c7e960896a69f38988c80 0x18de3237780015869823516c3bde830b76cc69c13622da86d0b747983184b85cf8a6fe5f4ee5c3833a03e49b1421df71 (-0xd74fd3b3cd81eb519217cd04c0cce81dab84461afd2bd3ee9529760ae1e382f7994874f98d543822fcece0d68b3c4c6) (-0x53a2c730b9b6cacd2fabb10b57a892b9598d53432226cb3f09af34117e92da43f6e2505140c908a117c219e540033ed) 0x2f9c46706cabefdd7336abb8969069cbc392ec35d5f955f94dea9ab6f5bf5b22439224eae2c6ef07998f28c7de62507 (-0x2c7cd93bd51191aae93871e3b4965368502c81f87f2e5e606bc083685978cf94a0a823e627d5cd5646831df9b3d51fb9) (-0x9826b167b63e68662a6f55eafd93c5c3ffa90fb7364d66df0dcd2d54989b84d4f3cdd3a8139dda504ba63489fd48b8b) 0x153783e31a67363f97dc3c0ca026e8b8c8cba5702d418d6115207e923d427231fabb562a124bb70d845aae09f7976890;
  Dbl2 0x1811750afb876c92f655353027a05243d840476539a88fa95efbb240c5bde6765647e41a058c31856dbf84aaf64b190a 0xe1905af16557c2098caa4283ffafe4291d3cac59cd2d25a7dc422f55713734dba8fd09d96ba464e2095d4d2cbac2db6 0x28a3e553fea4bc12b91dd78e39afd984d53a5f27b97f4e381f71f554aacef0bcca29721b01742eb1bab767c6dc2fb28 (-0x494511ffa121cda5a8a65ed60b507e7427dd134393d46d7ec9f805a0f02ab8c8cd4f09dbdc3120d5e8ca35f1eb479c66) (-0xea22b6e8539844dcdb3984f6df3f8556855fab3d5ff49f30280d30615ad3f8bd8ea2cf19870f8d5fc642d0129b87a22) (-0x1a18aae7377792e9badc6a2628230719f6681ff61b4cea5c49f9b6c763e768e8059ac81615a90bf781d6f830d74e7237) (-0x145758ad22c0005acbb736f135aa022e72e467ff807516c31591fbfecbf968d610839fd44638feef558da332d9029382) (-0xa9c1f8a9e97132985b5b2b09c899c1a41204e285aa4a3fba1c49fcd1bc189eb7912a35132285ffeba4e46b5455e4df6);
  Add2 0x185c7efb1e86f93f0371b28450647e2c3e9f58e3fc196843ec10d9a522a990a4628d5f30be1305580ed64fef16ed14b1 0x17f1f5419395546a061c4cfbc5a85dbbd35baed619638b575779f22836c802a717847781d4bbdb74be3142949fb3224e 0xfe8a6009e4b2e34766b2f34dd3c8b437b9a9d8b20600ae0284557592d398a41362e470c1158a6887c1ac5089ce17480 (-0x7a69d3b8a92628a6dc035e28b3e76f61c264a90907af470a6b415874674b553511fa98de1fe6a3c6189c21623c577b5) (-0xc5e8d2616768a442a7055865a515c38198fa7ee1f8c3e5802835265a28882d8bc03c25ba87e3a34e3ee9927a62e609) (-0x2cdd5ef24c19fa656a47545dcbdb83fa4b7669f9c6758fd3f0386081564d0fede364a58a2c9bc0f8ce6b73d60d5cb89b) 0xa74d0920093d4fc4b48c4bada7b3f2b6a6862faece0eb78163b000305f27e1bfc3458ed628ff456ad88941bc565c0cc (-0x8036debd24c940f6c13d42e27f5d556fe5abe32b34d7f38a155257590fc433e4d56ac09d32ef3f5bd45e7058889d6a0);
  Dbl2 0x4e5fbef0a7d448ac5f81fbe2504a168d2e8bf00407ad3a4a702944be9adbdca9bd0dd51fe7d9ac151de4840b49cf740 0xd0664d6824ada9302e416d7e5006c6761e5a63abe9c2c75b13a5893f39fa34abb8d87e7554c311bdeaf48fa384796db (-0x1a0a7dab82352d0ddb23dcc4bc307cfaca756ddd1903c5d9bef6f2bbed2e2765edd4e01cc499053d0bf4f4513dd4594) 0x251adcc5ffee63eda5e1ac35a6e506eef7e60f2d8b0634187408b2f028827572ef0be1671b190613ee268c699b124a0 0x599eb8c30b95b2d82e20fd2dec2f5f21675eeefb15e2aa26e19ccab2bca134a5c450789e0f645122a41e3fcc03599e2 (-0x4e830febb0a1e0ae5854b5ae9c09c2d3bf0df1e9c10a81e5f0134664852fb396bb8c0b520bb067c255ee5e9582ae6a1) 0x67367d764ea9df06aadf7296365093749264f304194d7df73d4c1ae2994388e47b2709fea0e161a5a54bfa2782f2d38 0x8fc9f44f5ee5654306f7c52044b07bbf41c180228d27b6d79269da99886afed8d664e1c160d2d7d71e9f9c78157404;
  Dbl2 0xab8bd741f5d8557f1d3fd217b0f8a3d4f0f9ea1e54c27e7542716a15de50d94e35be2172d4b6dfc7b2e606a5eabf6a2 0x4a09cfdea653ecc797bde567bf2d5f382f426e1f8085db2fb17389675dfcb26264a80569868d78416968839bc9544e0 (-0x7908b63c444f0534d9e82df9c61b54d86e7f94e20d9c5d962abb4e5edf75df3b510f18ffa25870d1a8f9bb1a752ce64) 0x29109651b93d61d768a77510cab33c819b08c732b2c251fd8149351b54e28c76bd8cde2c21804999851e0de4d32b31e (-0x398de771ba9f45fecd9d62d7eb12f0339f484f6f2475ff5c9674d01bcea17c7320b27f0c4041346e9782229e23aae62) (-0x3d0d7c19d51175cf1068f4f408ac52d66d82df98be31aa086d1e8742c830785864ea8b2ca334f0e16f4fa494fef7636) (-0x2808e03d2f083dde58f5a64e84605362a313376b394c1ae8503089c7b41a0306423d9cbbe527c3998ba124f8095fb14) 0x6d4f402b3a5a8fa403979978161422cab071980131aa57b131d5233dfec2daa8975df6c6e472db35bf03a83d69a39ae;
  Add2 0x11df5b2313de36c19e1ffd6eb76b55c5470b6c6100fa766b0b052386a6180c0bf71f8ee525a8cbb8660d183130e25e0c 0x157a792ba150de7eadded0215fd0b2c7e5055c85005dccb0c138b5220cccdf3d0c9958ddefdffb2ed1bb9d60e9cacf63 0x4892655cdc06bbac2be3a3d79e2165dbf2fc886d439de9c8bacac1ceb297b66b0532f01882a8e6fe64e7f2491581d5d (-0x7f250d215a420f212d239617d8075f4ebd91b85b715ad2f250e82241ca815aef2d8e19a019e542012d4ab459055902a) 0x574e8e8cc3e11b8cf8983f87d8f5c40945063dab9a58c652123af643ed0a4f5b9b8b66250c2abdb01b838e78fbc7970 (-0x1d861f2f61aecfa59f472fec2e5dd60f172ec29fffc2b9c039971373d0a20a2349c9ed0c9a03c79d1e1b81cca86af462) 0x27565d417ef52156e887e97b8addbb3018d999c8653db05b8afcc7d85d843644a9a53323a0eaf773513cdf1ac6382dc (-0x53abb2174fbe9c2a96e9b96b15e98a89496a7f5b5b52c97efd7694d3c0bcc1c2007988b3dc0125a50e21d95b65bd370);
  Dbl2 0x891bbc9caf0c718fc806dfa0605da10ff0d568923699e5f3420231c15f1ff4da529f807d08c0dbabd15e291f1e8bb87 0x132a611237840dcfe26209c721d28462512d6a5b825823a0b63b00b7ce5c8b4b3f7f22ac2f9333a48895545c963cb577 (-0xe4323b462958a16b03bac0b42308e721bc4cb57a88caa7102d67e4209bf67d610a88ae62744eccad98f09c379d23063) (-0x9707d3629355466c51e49e6a5ff9a1f6948f5702d5acee55ab11f423da1f6194095dfad6fd53f184ae85cb900ed047c) 0xb4d2d9f477eb68df41cf3e144477a5e33710258072bcbd8cfc57b9b5b24f5ff7dd33ee7f93ed49d9dd7bda1e5ab4e1e (-0xca1a43428f728bcfdf7a7cfd18bcd14f11cd5d2ae6893df144af9ade064eb528d01aaa0decb6fe61c585dbc512ecba1) 0x1ae12d5b2c58f5e87333838860a8413e859a9216c2d232591c621645af3175ebb491dbd038a34605eab8a37c20d0ac5 0x75dfb88925199b4387437183e4e6c9f446ba906f7d940691677b7059d4cde76d2b1ac93f025607415fb0e2ac79dba86;
  Add2 0xfd775e039e63075a603c97f98537f8166684ed96dd1e73807ad2671dcbd365ac8fd6aa7ba08ee9b09a3470acd735afe 0x989ce3b578805d90985fd2e579cf87387083d917fdba0021d3e26f648ad0fafb49895798f52a6784a3690aeb726eff2 (-0x43727db080cce7ac39e2a18787b31949be509c8079da14f0dc9e4ad0b7b3ab0d17184d5885f697615e6995eab6ad9b6) (-0x6a1043af51e8e10c20776820b8d6cb9edc12f754ab43ecaef7d1e5147ea033ddc31527484fabdceea2a019dead7fdf7) (-0x626eb3914852ea97999185b97d2c4121822346ec52ab6699044434b909f80201da9b985d00ffd49d33173261edea677) (-0xb9f13914f193cc50a9fb0b8926faf7fb3470222c2a1e8570bff4f629d02578809436a720123d65c2bb91ff044e8b0e6) (-0x5e93e1d811dbbdacfae8a10d6127be8624c7ba5d02eecffa898e67d5366512e49d4cfa07a4aac12d78cefdd04c5a959) (-0xac228cc7aaec710b5ef47c77cb25481f8a29f045406eedbabed0e178d7818980390d908d6ff462a349acaf7366952fd);
  Dbl2 0x1366f03136886f3cca32f0cb9c7b152ad33e4b4466114489fb4901f1674e4073b1436bc046a4d261439860559ce4cb3 0xd72b63af09ee3201277f627fe5ea0a406dd730366ce18140f96fb291d6f828c7e26aeecc89fbeb6fd0ab6b61e0acf1c (-0x8620f4328b691eaee57341f5b2772d0399ef70f5e1a0c5d07d41a76a30559211c5ce336c74b7a11e098480e88fb9260) 0xa482ca099a4e2044d43ad79af29efece56359c175c38c019c6c6e5866274b3942dfe0f7279963b4c0f4d4b98eb08bd2 0x6e5ed29bf557fc1c526a2b2b11953513888301c480fdc6b4ddf73b051fb3f422cb08106699670a388e52986e786227a (-0x141150fa032592e93ea452888052af89e5c8ff0012f310c725fc7bddcc2da96d0875f22c4791a7626cac36e7c7588cb) (-0x3c73910983f69767743c01fec0204bc857766bfbf958c49d522a5ea8e1ac6acfdcd6a886247b633cf9dc4f44bfe4f9e) (-0x168548fde11eab5d4ef4e6820c1bceaef9b709a4455a832ac900d7be18f53ce5b61db398500e685576ad5b041c7120f);
  Add2 0xd7499e2039308a5b1230a8ca8173e3b8a7f3c0449f9ad32a663c2175a4c899a14ea4e30f10917130dc90e936a0da5f5 0x15b8ac5f96c3bc0a15b83cdcfee96e11f9de6d4a7740f0901772bc6ffb7a5710be2851cf088060f7a811f9836a393843 0x7105ab5c0c40f888e034d99376a85c58e883a2c8d490b5875bd6e28a3699dac40ebe6fca91ea8aef53cd8041924350a 0x552cb37372466236b34307ae0f9f498eac28ea99f64958910fe34c7280843142d1e3a632dec17e4e233ef516389534e 0xb2e7e0359e88e055d73e4fd29a3c70988bd23d838b88c5ad84176b03d4366bdc982e7c8e1da517c768f0a1dc0291f01 (-0x167a92fd6a6ef77e24ce9c96664a99b1ae3eaa48e0c158f78ffcb855c94d7b38da8abba2da6ae2d4727e593c69c6596f) 0x11ecb950f78d0af233effc85e52c6ff7af31392a502c233f2e2ec74f51376241711961ba3081c81529e60a3d0cad8e51 0xeae9674aa7b26d8da3ff9c2f4987a21609e97e68969a466f57aec4d3cc874f620475df1aec5dad05e957fa59016f184;
  Dbl2 0x144178241b94cb583af7dab5ed67f3de35bc2cee8e1bf05cc06527fcb67d7199117da1527f3872c35c1b440cb02a404f 0x957b8e8a98c1f37525be7d795057d595c5b2c914faecddd901b5044a5425cdbd56cf2267016cfb62069f5c4c6b7b12a (-0x341f89c89be6a4aa695802a35af5c20913a7970d9648453178cd95293e5672f9d98c5c0466ba5b857521a2f305d66f20) (-0xfd3fd70bd7d3ded2897f9ccfd7239f2d77bc51c29a6d49db662a71cb768f4550b4eac73e3580f64471bbd608ff46abc) (-0xc6be4129b648e5926d7d4118d6cf5d49dddea44eaa72296e86c7dd6267c91bd4ab8cbdcc4668bebfbbfbda5699d7ce3) (-0xe8e063e93017dc12e8001b187f393cf39945b1befbf888e9d1a7e1bc114d4e1f2e318e024690d8cea061970a98346af) (-0x6443d1ce47cc8e68e437df7c031c269e63b07c7fe7065ce6a641f2e6538d829a987bbee432de7e35e709239979c56ef) 0x648f800d02b4b950813a034b7de81ab2da40a72e7df356e676f3f8429c92cfd17ee4cd2058d43251965d9e6a1c6153f;
  Dbl2 0x39edff420adafaab094276d68ebc535ad07852f485545adefc69a4795a036696f8010546420175d985eb39a4b1b0144 0x1909e80555d17cfdcf0fb519a47767b60ad224d7423a400c497bdfc1f48e2d8b847cab7bacecaa605e746ffbd10b1cd8 (-0x4133f9aa3af04ef6fc1023608294cedc372a9d873043307d3758af83b27c7ec8d73ef7abb7580f70126369a48a936903) (-0x368e67fa832ddf082c4c4765854741c7768c8c4010f488ca768e0e9ff4a38200df8b39dd9c9dcbf4a86da32da5f33324) 0x179ade7b0c94f66f26163dab08cd886dd933790bc07e3754f256e157dd913a783230e5825b702ff7f8086a333c4b3acf (-0x6f8ec73436b8ca2b2752269f1020b6d2abc3c7ddc5a3d4d160f331596af6cc59f75b968803be57bb00390ed8ffd486f) 0x692810556be7c31e96004bdb45282433274413d26b06fe5d182399c315fbf5d80734f37dbf01331638746da9752fcbb (-0x1300d21b396beb7e59076c1986acb026dbaec324960d81f982187720074dee96c9c021395800cefb8415dd22b2ea1aac);
  Dbl2 0xcbe1b890708ef49058f458f99474a5e53165725736aae358658002cf73fd2b10bdbce611614be894ab7e5c05424db0e 0x7ff89625e72d71088da56394657e4d49c1117e05f08eed3b7b1b2a9534599040b570c3b7f68d2ce58a5e847db1695ec 0xd7b431928db8f7b8563ec3c55ca0c7508f7b2ac95303bc8445761d290cdd47e3e7c7e9441682b0654f9db5cbe0292ac 0x1889427203d5f0ef14a72c9f5a7a65260d8fa306000b8dcbfbcfd1858c1efc7351d56deca8dbffdb501ecb4bcc8a9a26 (-0x3c8bc43593249de112be75b544aec3bb966308e07f19e24be024cd16b83e400962406846db53a6c61d2c9695ddf3db2) (-0x7d6ac8eea3f6ae26d3afe9b8f4fb5498fe61628dbb9b4475281e6aff51f11672b501e535116a8d09a4f42953ed7f0fc) (-0x3e30be6ea671548e11feb2adf0002ae5b5021d5ee25a1ec897331567d1aac9e4105457282b81c069c2c547913060b58) 0x934deb33ecb0305f3506d6591c0620379b32293159be29a7bf54925934440253f0181d90b9c12c2e585d77372dbb33a;
  Add2 0xe350d005462d2b7e83ac21f7ee054aa6fafe54fc5a36c176b15bec9cd213731c78db02148a794b5a9fa543fd2b1c78b 0x11815a354673dbdec1b312b75e3a78b9802d5d6dbffdb344729d496fbc7f05fd73742469999fb63a6623730b945cdbc6 0xb8c7383823b86babfd65f374e475838bdc33742d737690c6bcd301cbba6645a711dffa7e19d987700890e91f2e07eaf (-0x384cb985ebde01729b48588533422b218bb7d64cee467532975d4e39554eda02c92298bc49fde21be8d1c2d6326edca) 0x405a3a75ae05ba8737c32b0135c17c6ede6dbc60e0a41634830a5a167d923add5f8e250d677925a514e7a065f0572a8 (-0x1320b87fac6c811757031be2625a09c9b6c5575399684466af59a35c6ad3af30dd18a5b4c8ec0fd1df4464b8934b9571) 0xe59ae9eb167132e9142dda0a6dc3986f49e0457ee5f9d50880ddbfe287ab44fe24f1342136f0f5b7127c1d50d1dd5d1 0x8ea39c9a40723e9aa2b0e574d6823bd5b731b75e24bd5e45de015cf2fd7cbcb9fde62a0c79c736d3a7c168d319b0ac8;
  Dbl2 0xb906c141c4e5193390c7d1e3f661da69b5d6b073fa7b033ddb235d2ba1128d7b808a9c53eceaf8398b4c139f0552b41 0x13658df5c52caf07458202aa467cfb8227002a750e36bce27beca350a1cb1902aff5d71472f5cc90baec16632fd0e7c4 (-0x2f6a9ee52b683fd613bced60d985bfbf39c7df118a59357715d4321c60c100e3c6144a67f77f70c5f0e53236a89ebdac) (-0x40f461e62bb5e5eb1585f52219680b10aee52d0eba94d3938b82a45049d34713545069f7b40be134a2e882c2dbd83928) 0x95354d7bfe72a8913dd8317195516b9717f328f389baa3daa3074a63005bde77fd5b333e0206463356aef81e8ebe5b5 (-0x11406614aeffb77d4b7c810834d32e0e00f415546d00e30f8bd1b2ac0758847f5b5d960175af9e8f4f2a8c734c837eef) (-0xd2689d56300e4f15c2d0e085cde8ef34ab409a3c10ce81a34de871c97e0d2326c0ffed0049eeceddc648739789644c) (-0x1c2df1921dc3ec83488b4fa52cefacdbb10d41897f3ddb4b179e9db93982ebd1c83c9275de85f407283756c240a717d);
  Dbl2 0x157e07967975a74dabfc5fafbffbac823da6186c2f2efb303bf8ef630e414b1c96ca41911136466c9da47ccd010ab0ab 0xe3531084177f851b5c8fa3d39d6c6ceff69da14bfb4268f2f1627530948fcf2c55b67146856f7f6b32bb3204767d5e7 (-0xbf44ad5c1fcf7125e14fec9f7dcb78ed49ba9882de07bb84d4a927dce6d2ec6502d65687be2db7d268938cf4693b7bf) (-0x4133b5540f97e06ec0864bc415bac92dff5ca403f67f2acb21eece19ae81828c40a92b3c0d93ec78b2475892aad847a0) (-0xa0029198aa97388c21874a060be7973e8e5c0c5532c1930f1034c8b950382b6138f06749ce3214e59301ba5acdc0b51) (-0x177c3c3da06476b798332c5f5bf8043c7a0480b999d2ceee1da70720b462014a2e397108362cf8572295ac1185733f71) (-0x66f495faf5ef9ed21d2f07c9811e0121854c15833dfd6a071fd1463b09e4a37540098ba3da76af7d200c2db1051453e) (-0xec6c234c4b804b3c1c35e34e45bb106062a438612a128f55b232a6fedfdb38ddec8f8a03c0ad7a3d3176e3546d5b9);
  Add2 0x16a9ad31f9175474eca02a09b5031eacb367b0d15ebc514ca1b2278b774b22be38348e7ea64d56374e80b71652067ff4 0xd49fe9d9c4e5984abc5d10800c1863000a735103731fe22f86c4f3c5e3fd7d5c6b205e008050464fc0ff5d95c41a753 0x3cbe9ba11d33ddebabbf53af4559a95e2688848ebe81970bd9aaae30ad0a77dc1f48f6e902dea48b40aee944c5ed10 (-0xb614f7cc09cfb1d6b718528f7a22f5d0af5368c7873a87247b4b27f0bc1e78029600685a0da1a9131e19c1ecd4cf709) (-0xcf5a886b90364dd71795260c25c683ced719662afdb5958c08ecc0cc6c91388d875181c0d605b7942e62ea95b929d99) (-0x1729b7af0a6ef83ea2c542b425575c63435e1cf301956723fbeca899f05ae2ba943f42fdf010edcec667d84f67ec40ef) 0x5223bce6f591d360bee7c4a08b4a768e44af6851f046e71306076e8807f0fee0a3424f7609b83bfb41320d04c3c44e (-0x185c381c6391e243df8e4ab28eff0b1ba63b6f2edb554012d426c8e7a0acd983e2f3ca12f745c2e51785a998416648b);
  Dbl2 0x2912fffe2872ad887dd988c95e427f40da89aedd3c508b7e380ad4669a8e2a6cb744ecfe52316a81d0d7e87e4d522d3 0xe415dd1683eebd21655313b3df1bd516dfa46d00887ecff1f3d03c6bb6d275a4b88ecd297dc77bd8c9ea825f3ef1a2c (-0x10db2c17bd4eab9ea639312b4a9130583db45abd7815a15afdeaf2009ec93bfabe0bcdddc1487fa78fb7dacdeb47a1d) (-0x2cbcddaa7c0df44026f238729abdbd50c53770db8d86212e773d486fa4d10dce2ee55edd3ff9c3c5a784448a59f000d4) 0x78faef76d3ef968e5afb482c263d28eb0c337ae32646e2655935ecd4509db8af5d9701fdbe537b34c310c7bfb3ddebe (-0x2d088598ad27b849f83361d893a725ff19f73cb1c7d52ff725d569078af45ab9b9627f34cbc0c77a84f52d0559e588a) 0x1d61a799be5161dbcec9bd8344b8f6c7e0a876f38395a8078fcd41db73ae8b2a8dd28b9e6f17e2037ffe32fdb9ed9bf 0x354b29b411bc847195fed225ead5a2283e0bb0ce2c6eeba765779c5fe3203751787f138aff718cd5c8b1ba11562a0a0;
  Dbl2 0x9f30b2926699aa95b6c817934cc6f2b8dbc66f12dd91c24b15c2a769400245d5684008c7ea79004ce3d06600695679a 0x171c0b17415ba918596d90f27235785e5f9d4b885aac1e6d471cd435f4a8f7740f0d99a02bf4ebaab62145f5f6bf3bfc (-0x26dfa3dc56e73f229fe5ce3cc0f95c3230b5daf12c142167ff17dce59f618b3813268872fa943b10324c6c45e9c00ef5) (-0x133095b698aaa6aa4f8a34f5b918b894939fc0ae7f7e7a1607ebc18d29ca9ec2e87b5ef4a2c49b45f4c1b584e2ab128c) 0x10bafc6a77a38966100311ff54e195ffcf0fe5f60b55ce110261c110ce3a2ac27d2f65c217f14e4b1ad5611694d5d783 (-0x11af0af30984a43d6fd57191b69776dc660801bdd4338ebc98ef0804bbc1ca77d7a62072d2b74e27aa041b1361f21b92) 0x1707bf14501524dd96136f15c0f4c0ccdd4c48ad1923793c772f68b13a458fa62e51c4bb8995af83605b1759674b9d0 (-0x2bc2a8074fb1e5be6704a76ee4803cdb18703af12a3e0d1ade7557e4f379582c806a4b558dd0e488e904d647f2b2756);
  Add2 0x176cbbad5ba9006045f3eda15dfa7f2e426a4e58d54a8d3b83a0377d43306741a9d37ec63fc3a068a1c8d24a58f9d250 0x173cddd331d6b36b18730c035ac874ae00aff42e37e594ba21fd386999e15d3381e377e4b55e0558676aa17db487e2e7 (-0x5379fe462ea8e2e76884b7b5047f0e0e66760b97099e6e3dd9d1b4c447186e09ae5d4c30abf8a7beddc320e1f3219db) (-0xbccaa79c4a0c8198b88568a754d59ffc1ce6a709ab531fc46433241224b6fe28bb2346f4fd7b3d7984a24ea4a88dc24) (-0x55e4982f4b2bdaff5edad561bd218020daf35415d57b877dab989b2f92f9a806d2ebd55c426178256804148532d16b) (-0x29dd8eb0941d1ddbd77b9a344bfd5e2c1cb1e1cfea32f44953d7dc446b58bc12c44412618bcaa48873baa398023c8b77) (-0xc6b26313ab44a3d07b71f7d11e0898080c5afb99ebc3ee6846ed78c5eb40b892a07dc9705d8458cd813439185d1d753) (-0xa2bbcb8f042d92281139c669fa9b5178ddf9f3b36f582f48d6692f79b8bb2e68e4ebd02b118bc62fb54ae7babc4be5d);
  Dbl2 0x163736f323711d2b4a23200e51343a7bb24760b0cb069140fe7bb849a43a081948ae01358c762bec3218caa801486126 0x51ae3e5e5478bd7205640771bf7aafebfe165a8b1c37285eb78712734bec44b4e11b5f7f753336da0f66603793c59cb 0x3273d92882b483c427718d6adda8670f649cd473567cbbdf76a8fdc661a11bca62c82d1e3c7e02b25f1ccd35f5e8ef6e 0x144c1806bf767bdec79067b1e2b76a0b2851e454a1172f8897c60549a40023cf77230dd9335b03a16c690a09f45f3c7c (-0x11fa178c282393c7853ab2ab296683fc72e2252634c3b0043b98ba5233e571583e572b03f6a7cb5b4138b04f15601b52) (-0x8b8fbe4bc5e84e3219f3e786bbc3e424eeb16e6d08fc6de853a03f7f76af17cbff6000124d093dac1daec02df6921f8) 0x185204c6de19e3feb4b30e8eaa326d343a6932d92d3dc1484c4efb081a0677c288ecfd3b892905cf2f7ec5be699053a (-0x215933e7a650d72231e0ba07215ceba6e105bd4a78771b5b3af8a3b4716462e982b8cda59f7accc9edad5b370f4691);
  Dbl2 0x109202d89caaeabb08346fab0ddfee3f34e7f2a551df0dc4424162ceb5e498556b9f6e0f05d12aabfc26add3d7780cf9 0x18b7bde2c6d66b32063b1adc11c0f0b0096fcb6a4cf26ecd58fe6fbd4d3f7f187be4d04986b28f6e42c8db38414827e4 0xf29f85cbe49ba45288c365d88805fd94c45ea4bedf12bf7e13523925c92fd35e7252dd6abe4643687b81a3f99df592f 0x12fd541eeddff41e4dfed6439226b841e9a8daf4b01ab44cbc5f58634254ff23889c0223a992bf043a40be18d5f071b6 0xcef9d9c2dd3e122692e260c09c178a9d53092ffdfe16403d74ba1fc0c0878f59a0da4b6f5858ef267a3637b230b97ab (-0x1f80505869faea426a1da71b357f628739da93b30df6f592c9cf2e227aecc5c308ad2d02b74206815ae86fb749dbd516) 0x884dbb8e78c0a39ab90fd7bb32a934f50e5b1c9f05264a444ac48652c1b797f8c17f4e994f5ee33e7bf5717c80ed713 0xaacfa3c184cc27555d93ac543e3bf6b8788b4134c7650e191723fb898cc08a6e8049968ef0ebd7201f086f9e50422a8;
  Add2 0xa6bac1228e484f82188f4120478014c2543b71fe92690d6c4fa2ceee567a06490cab475174c0a436b8e673f75fdc395 0xd2166a94fb7fdb69703f49e1a9d86235cfc00f6550bac7c4a58785a84f1c4f4cc1a94dd28803edf041e552f0134b847 (-0x277ccf6c20c75a9fcbc019711b2a312c21fc6b6ffd9a2abcd769ee8240e06e9b777885d21929c3a2a0eeba1fefca30b) (-0x69f0c82d092eafaf3c7ad9c0d674bde5851165426ee3fd207b5a92b24e9f436877f140d00fa216948976dc2cd3c8fec) 0x27449260055252e8b5e88ece0c9dd35687d58574c0e941aef9264b6af6ed798a6db35c7b3cc489f07fe636a694b8e59 (-0xa86034764e8821dc44725e83511f811172b800738738bc4df6ac7fa712a69250e39c4bf77ee1fcf43522ee7fc2f9e42) (-0xc804d9bb4c0fd2f377ef31fa9c636a6fcdb31ae433b7ce4572d3a19a776ceb7796e9682a099f00f7810538e64de497b) (-0x42147ca0c609ccd722a2774054fe75d02210b142b1d1a0ea5c8f8063fb9d244880bb4ef4708a16e323be4f48476d57d);
  Dbl2 0x7566f60c1401f3ef725949d58797aedcecaa98665786aae663ebf6964a4aacb6e2021437697440db476f6f7ae8952a5 0xda2a459dcc83ee67024259a644f3293998b1523d43114184415005fdff49987ab859dfd9dbb2a2ab49fdbf4b26c8af 0x4889c23234e8c1c075308458cf9299a10dc19db9f0b742c9d6990974c0f0889d4c9b362ec981fd3e09143758777da68b (-0xc8b1ee357f02263a4a04efdd8b2095d1ed736a37f621aeb9fa45233b4aecc3cae7c6bf1c67ff62c26360a01d976507e) (-0x20ae41ba596940057c335b3c61d92e50e928c0a37a6ecb31d527d6cd33f38bf959013ac7c4c67b7abc34e15c447e979) (-0x7b1eb440cbfb070af42ffaf1c4969f87706016b11883847fa3557a708bf984996cbd8f76168978747ff335d17fde33) 0x51e59a28e65e07fee44e8a9f87ec8397a796ab3d474a47fecd0d4c4ebe3e7c2bd98d54cdd87e38bd0ac95aa7f634784 (-0x13d40c2c63622285fd33b35fd262f6e6608046f4b67a05e25e7b84bd359db7ebafd028bba68fe389fc86fda693daa43);
  Add2 0x1430e1df77131c9dec78859e30d75e5a02f297bc3cdb9562155ef832bc4b2b3d09298a8b0809d172cb91f8f2b2d03ce8 0x2910436d95b88d93abf81d676bd3cbd67a3fefd5ae98c3d7ff4639e24895d4ff84638a86e054267c51d89eed3ede12e (-0x78973a63fec011e12842422a2057b38db4c05c476ae3ea4202ab49dd4972ec66dab3ffb4b805e5192c06f78fd97b80e) (-0x769d75e814bb6a68a604f79f8e08bf7a63099720f7d3bd0092e4fa161efe58997d555f8ef5d3eb6846ac9a3a9dbf244) (-0xf6c88f548954ccf3769688eba816f3dc34b98670794aba131eecce0f6f93a36fd5daed4f8dfee9bb3c758192d4df666) (-0x3fc47eaf40319ce376863d7d19a392fbf6ab22267d5c9fffe693ed3789353bcf680f1b925ba398fd91b0c09e54eeee6) 0x41c83b622d717fad23ff0ecc3684df501aa6e38440fa01736c6765d7889dc45809ea5b3be67fce1606976986a8a7065 0x341c160fae19536a7e8fafa74e8e1b48956ed712b37117fac0c1fe542d8a6c19c989f87b21b2ae230be00cf600d051d;
  Dbl2 0x1071608bdf0a3199c3cb0ff295d2e5cdc5eb200021e12406bc21b38be9e17557a62ef49da45309c16c5ba5611a3148c6 0xa6c862ec44cc639ba9f7569fa6cadd67d639b76ef70b2c1b58045595a6e764a9a7346c66098f7ecf06f75d124b3515a (-0xfd8ef0e0a91dab726e0147c3b739eb3355a3236409a4483c43a80bdab0d23258dff034b549f8a8d7e83f21644ac5c08) (-0x74112dd9ee6833069ee2a02db1882e5456af782722f8e50880eb9cd969a6b465e897291c74bb7de6546eb4dcaadfb360) (-0x637f78359fec5b481214f2e32f0840354f8481b7765096a489bfaeed6c22d863441287b7e40bd35649e9ace69b936e3) (-0xd2eb48c02d14b19524841b0e576f4a4a7a54bd2a465c79a1b286208a0c4f9ccaf422b68f86c556bdcec3938164e2c88) 0x68c546785013fe68704825de658e030791169251e0e8b426b4b0b3ec969619e0ad5dec5d36048eacc65cead1635fe9 (-0x6e5dfd8bf6abfed92152ec82b0c783d080db219721df0d747a972ede9b1607e958dae35a8d2628677057b1993856785);
  Dbl2 0xccd0d0fb80cfe3f2b1068d667bc39b903d32774c2cf6ac160025c26e61fec3eb9e20310c46275e219d6b1720f8e6a96 0xd9776f0224382dd52eda3d7242aceb7d1879871fedfa1a548048bf6989c46a5cab6f4628f8e5bb60aa80f693fcdbb8f (-0xce09fd6ff63c9c93da5f90a5f566e2d2a528e9f5da111c31af8e895bc14c4343ff8a8534c9973c0905114c369ef2dbb) (-0x20c67ed56ab5939d3e0784eaafc2dc0b66100541d730f59357922a7aa34b100e67280944b506866716ec3cc99fedcc16) 0xcd6ff340c58e95aa913aebbcbdfeacd41c39c9dab04c99035e1794268ca8370a2a87cc3af8426e6fd213e72e7de65c (-0xd61a56922a66a6699c41e12a21f20f91159bb30b20b21df11d8694adfaf06297d061914ae922ba55dac5b5c2df50023) (-0x6dd40a28ce06979af8ad079f02c2cae46b399f3f25bc4bfd0558c404c966fecc7d68ebbf1a38e90d59dbed62aa096cf) (-0xe04c2c424e5f073a6f9fca019b84db8d4b7efd9515f07dd5ac3b71d24b367cb28786d59a7e780ad8cf3394d4e4996a2);
  Add2 0x1034ce07947c507518046f83079b581e06502834ce6a4535ff08da2ae7e55e88daa8954607208bd190e69103daa075a2 0x99e0bd681ae3fd48c87d56a6888828428aaeb8c9be2db896aa8e0799f1f3f37595ec9ebc9038385cc3035c5a9819d3d 0x466ed019ba338c443799e8f36b3e043ab85b8b74a5571562af13caec8a742fb4c98e0f54e2960516a1c45a3b98f16c2 0x5046b3eb86775a79cb4d22f988e505044a6c6e25af7c1642164d4aee8471df6091cdfa29cf073ca3d158bee3b528644 (-0x68b0c347a513df65993c86f6f98dfe4c9bb3dacb1bf837b34877ccec1006c1555b87695a1fceaa15f4726a7e6fd23a9) (-0xbfcc84508b5cd64691eb6dc4330750f0184cf41111275c498b813fa5739f2672eb5024ddc59bdbed6b139f7942abcc5) 0x9e378587d11d54ab579053721271ff4e2589b737fa07a9c1f1602dbb9d9063f7f2856cbbbaaba6c2390d9d641237c2a 0x10d167dec29a76eb74f8d072798826157b6e70f106cfe43df14adc373f0de60b67826dc81d30dc90b5f87a6aa128401a;
  Dbl2 0x16759a647d932a8f02c90391abf96c68262ad8c6071ac760cdcf8c6784438ac0c784f8856b5b6c6dd5b4cfa743b655ea 0xeaa7e2ac4f36e6681d3f9ef42ab58e1af5477b09574775c06c4fc490f7cf652592fbac79bd342399dfe0e9d36103481 (-0x23c0abfb59f6de2d3b71e83fc4fd539a2f63484a1704aff534f5050e3be8b18fdbacabc34801f44b45a2ff08d0843603) (-0x52aa14f97ca12c3450b3053d3e125048d725a1605e14788e8d20423fd9846d1858f2738abdba7acff86fbdfe2f8bef1a) (-0xb205bad2936f88acfa4e33e25c93c878b34d7bad1059d1b7bde68024c82a018be43b7a5d911d2b4fc9470eac8f802e1) (-0x1955638a97f4242559f158b9f296d640a838e16c8dc775dd85fabc34c32cb6e9f795db299a58b80012c579a6f8bc8d04) (-0xdabb4d6977a71bffa32af199652575213ceb2e4dfc349eff87ebd0c9ed1afda552bdde894b1aa549ec0feec3cc9ca0) (-0x9d0275b2c16250f86fe0e1e93902cecd7df16e2a2e3a676fa4dc49db801cb111e5c94fbc07c9bcb6be3b8cdf780befb);
  Dbl2 0x252b558366fea4897e0552dca544046e6daef657d1d9e83667d7f79ce48150e9fae1d7dcabdb0b7f2f372b4a46b3f8a 0xff0e02cdfea67f022e8971646f0254f8111e988faf57bceb179eeff855711d71d5718009f626a7272ad83cae9776c5 (-0x1234bd1f5204610a27804eefa0248ff570f0ecdbb0183f83b7f43beb182c93e6a86f4e3f410c2722a720a24565eb3752) (-0x2fd3064d2de7b3a3a34b0368bccdb27e6051246876dd8942476082ffbfa51a526344af8571b49b71a8b41ffe62db8764) (-0x2b5b2ec09c115235b9e55bf36daa49655836dfa04093a17ae54214b148d117d04c028e90cff68dd8e624895fba767a) (-0x2d920fda0d71cd2ec90f05bbdc99c9d9b7beaf26c40aa96588e2898cc887c570782fbe53edcb76085d5594fbc0ba2f) 0x98f731f400646d7948f895ff51589ee87b91213a971ee4f32837bd38b29a1b1c9714cdf76e3cae3c030e45ebff65a6 (-0x1f82b48e144fcdfc983e0a3d6a46e6f3c751e1b60b180adfc357ff09c54879bd4eed9edef19c8a3b1a20c7087f0a55);
  Dbl2 0x77265fd6b51338d90058c8aa15a7835439eae0c28ad5463d7c8fcab2f2294e702b7b56e7dac9e806dbaa875228755a5 0x8da093747b6a1fa4cbf40efb7c97988dc1a3cd09eb1d2f8f7cf8e3297a4853e6b0a4ec811b35d66429d43bdbb914aab (-0x404bcb48f0b1ae525a5ac70a411953ce9f3093e1ccf0aa60136f092993d5bfe3a6c108874a805cdfa370ed991dd2c494) (-0x1f41655130265b960607013f389a70fb770ae9dd619aca38b2016f86c82d39a2c0f28dccb66cbfa39b0f93da3d8689ee) 0xe168bc397095e9c52161e23dd1f42d72d18a31c442e0ee72b500ab182e4d5a5985459780dbee7352f9ffff68b3696d (-0x511dbc6137f7a22999bed30c4adba06cea235f78e05861e365e236be17f5b8ebc22353704f146324a18831ba5c8a64f) (-0x500f988f9cba4c46fff6c8545a0cd957ed3b9b2e86eddf08cc5dc7f81addcbfcb175fbcabf3120f5bfd3085ad8cb188) 0x23dff644fed844f593c5eced29fb4c43e7e46897945f82a96ab042fb101957494affa89807a50eab557113d4118a13a;
  Add2 0x530f7cd107da4d74a7724e62bbd0d618a5de88872bd325ff17986b99ba8a1018821c3d417cf8758f083cbf3a0019ab6 0x106c7b12a883d199816745d936f6d1e9fd558121d88d8986e94b129dc54f63b4b3d2387aff15b29b51deb4dea30f79d3 0x4bee09503233552083707ac78e19f1e5f52e4d8ef56ff41a79b4f7fe1fdf3908d7670f3738abefe26027c9adb5b07a0 (-0x8ed68a3a55e987ec1334d9510bbe92b0c51027ceb6cce36feb4176d57a305fa2ce6edb151b4fbc15d854812b575300a) 0x9562a8103c3a291f3c4b7621a2025859a734dd51fe77edcde308d5264c31e3e9969273f00c1b221fbee4375df672e28 (-0x68eb3dc0bec8f5310992682d3cfc9653dc8c1fb0c79d7633d4fc6d5092047b7fd2a24081974692c17f9d1abda68c2e1) 0x4ae1d7b44ee9f2fd35d93abaeb8cd7073f474ad773d96fbaced98616e471f4697b026034a640c91cac41b9f64e0f037 (-0xabd09d9166dd20aadb5af3aa0fe2d63f4c67345059753d4fbf6694d239a0bcee4632f39071c13fb3e18bec85365af3a);
  Dbl2 0x416ed985929ea51216472df25fd9da3cddbc27a7ff91c0f75391c4cc4da181435ee1fa96ceccf8152f439ace248dcfd 0xe8aa02f849dffe5a4e06a8177186db3bc64b88e2245e3a24eae19939695b07d580651587dc0d87e925092fa7180a2ee (-0x136eb206c5eabdd0849e7e2cb968e9223d6dbe6434d4d2d6cfd9b39bae904c568048296eba301fb130346a04f4036d14) (-0x2a99dbdef33294048de9da416c5d24acd9ee87df01827b2004cafd8e42cb921f7fc943ed00e9f69dbd8b51f902c1054) 0x77d0acb2753f46d8e95b69b87ea22e75b08afe89b7485c07b8935f3f40bed848f4db6c9452df7abaf472ca6182fcfab (-0x492e1c6ad4375304a1acf28bc1682c44b9d229296d011ea3755e4d33380889999b151f5d9f92065828d7666b5cd5c92) 0x334c352b11ec5b863d7e268f91fb27ecee39e0ff33ca422b10a151246d1c56c2156c77b797e2127b9ae24bd0415b858 0x4c1bfc0dd100ce3525cd7552e305ad9785cc87912bbba54fa27e23062d016dd3d1a38ce5859a2604398489c8a5fc793;
  Dbl2 0x164422610f5ba8cd44fc7d5d43442aef83e7fce7caf3dddda7707bafb1f49f6e07d5dd976da8b645135bbd3c3c2fbd11 0x398d238885950a5909f8c074beb484d6a2ed2cbadb079f7947e4af03c8000f48128753d72676706b8ff60df4b4c7187 (-0xe8a1290bfc5410b61492d500a5b233bd49fadf40f6d8ce888fdf9d3cf408c341ea917005786c6029ed919c3e3dd9fb4) (-0xd112b2c035af7b525d6c5b76ff489b4e697cc72d2a628fb6984aca0a6eb403682b7ef1b63fa832df433eaedd6e3db50) (-0x129162aa54857e18e9f10ed62120ed8cae07c08262287ce715a268656932fa6a25975edd024272c09b49b2053cd9c425) (-0x628e949626199bd50d900ce2869bff8501fbc9aa3012d7d6a22b33b79174bef281ff65c9dd959fbc1ad1b97267a5dac) (-0x4ec834e50e8400693c385b17793a08b87d1f878cb52b760c5f3b4a252214ce72b224720bfc81f00e81b973f6f67c222) 0x102ce94c71f3e2e6fc442d2f279f3010f1803a4365be619b86a434c9e3d12d4b0b93b698a4191ce238a579013facb490;
  Add2 0xb09cdd81f3fa5b08270b6e4727eb9eb833b6f6d46a0f0ca43698dfae72fc2d22d9c65f3fe85fed91c23218a05d3a939 0xe3d5eac891146677e915e76a62b6fed007157d58586ee23898db16d5c0274a2e7bd73b14b3e2b8e182068b1ab79ff9e 0x6bcc6bf1b0960913946b79f04a7ff4e468957bf24a5bd59af0d6189e78f744ffa6d284fa733ac08a13756ac9ce87b73 (-0x8d37101c35238548ecb05901721998f25a661981163d755f03a02ba7473ce90a354821e92484de7cc69d1463b1a3e54) 0x31cae000392458ced4f7bfdbf141963acfe80fad77e5db91d2955871d5502f286a8c29af4a8954fa9bc49a383ad9f49 (-0xc16c9047cb64976e56982e79c6125ac4afb0bfb228310600dbe381750eb63696b55cd5ae5b37ecd254daae4760d038d) (-0xad7600d3002d039a1fc8a3d42dea949facfb864f0e7dc7bc1fdaa1f55a4c06bc18f8aa390dc57a2ad628a77f25598e) (-0x85aaad02ddf6c7e42c1e8aefc83bf8a3e4d39c345f59ff1677d2145a22dfc4dc877d9e548047b6c5349784359cbade8);
  Dbl2 0xf54d33d8d05b9093efc2af3cbe6cb8f42a08094628bbdb9b3f4253bc7fa3b2a16dde738211919d34e18afbc37fd4c16 0xa77fd344bfb9e48cee45125e98765dfccd986fbe1de682c63bf011a23767be6555c06b9cd9741beebb63e2b86c7d2e5 0x2a32d1ec12e850d9edda6490b86cb8fc6e22d55368d1fb682634ae985828e028af9c550ed4fd094356e753ef945a4448 0xbb2a5163f223a8d360a48e86d04f5d5e923b7a6c9327e5598c318f79a8b338b88b448e8a0c6c97a5617f996b8743ec6 (-0x4d3108585ed9cf698ea03322f01909d77fc3541e6401c89d3c825ecedcbb6eb95a7458fdba3b9c955d1139031e646fe) (-0xc581874ff897ebc07ca3b8303ff05cccd57782badad1cd038ea119afe60b7443656d8d11d4285fc26a5a8c0da06d2e0) 0x291409d14f8e94feff707553fbdac8e74cb996a6423a142ced92de9a9447bc937127c79b868abb79a3e23c8509310a2 0x3dde5b0ab4cdb347f093076fa24734f03ad6a49e5a1f7f17d27a0aea645dc6b8a7ebc3d4c4f1dd33c5813afcfc7bbdd;
  Dbl2 0xe9755a1bd889ae1d7e0ce7ea7e977bf608c7455accf5f1f3d6dfb2ae1ad0af74311f3c096340be6e3761052a6746e54 0x61c7e05fab02c30dd2c2d979e8351215b1acec8e2180fcaf2d6dbcdba86e90951a6b83b44039ca25f1d66cdf81a0aca 0x2ba4f3c2674b684f38d7f94093ead4fa531df599a5b1b2c4009a0a62b50827b8928be7fbbbb6c2c16313d1055c4a6367 (-0x15cf69f0b5953596f8b12f205f11435c225632e43db68a510258dfa83ec0739a8824d977dcd18a5adf42d0947ce712e4) (-0x6c040405bb93d36ccd3f77595af48062d90dd69f3a9424d57b83d2227deb67802c13ae9407cd38764302d440bd8a606) (-0x6dbb2ab5a2455a89d28989da219926912b994e90214058f43d50e9ca50e0f1f6d70439e503149c0db3577b8b6b6d31f) (-0xf3b89d567e6669cb353405556272c092df10fcae29ecef8372dec00cc70d749fca8ceefd6896b657654fd43534334) (-0xa24d7300ce43b0173f0a928e7657fedcf57e124c455111cf9ca485bf1a0cce61acbd949c9d849d2d01499d19b1da144);
  Add2 0x5aaffec96bce8d2599555acea3a1fcae5953213a8aad8151a222963e218466b9a0ccb557d4545b0a6ddd86a8eb2c9ff 0x49a350e612bd1bcec4dd142aab1191bfce560945c43f27bd524d9dc0251a560af72d7f15bbc3243354205fb8175c478 0xb5f0bb6cb7d95f46d93ca0051f02d48022435dc8d607d9b6def7d5a9899e967338106fce231e1352c5453df893dbef 0x2081d0a99e560ab33373b8f9b1e0785108ffa91d000527b75237364dd9bea5e530ddb8d85b5d28250d2cc7ac97a7847 (-0x6bbd405adf9cc5d7188fd59994c0e00e603a02e1e20cfdd2d830200b000420ff8a68adbce86aeb4ea9c0102a190e72) (-0x2019ce44fb62060c1240f87fb9b142dfa29563d62e61d726e5eea5c041decb0918f6395b29b65a759aedfd1b9428ded) (-0x2fa3f45642f14e13e55fa9458b9b5cfe254533742c94bf1b68782b85772dad18967592ae1fb72a5d48512acbf3aa38) 0xb7a42cc46ccb10665a6b7c18d5f3a8de3a497715d63532e47e54ab47391aa017f23710d0fcccf61e42f611aac2d083;
  Dbl2 0xe2c1cdbfe016de97f5b5a67fd8f487f63a3beb5a6141ccae7ae44719a34e1d8d4bde29ee13b8c21539797cd041603ae 0x2042c6317884c78c69ff6d10da8905ab37d4613df4e755eca21d7d842ae58d0a9d83cd0e91b6d3ac044c1f3686524cd 0x15adeac68d2269b707e9b9e1d12dc6bc336ddb66e545edb0859417e59416a3d653a9011fa1a02d0f23df7217548c56ab 0x11d8138862fd67a15ed787d13160509cfc0ce5c90b2213dab117b67ff7dc0c04e8f0a686c1568accb5ffdaaece11281e (-0x7914dc66cb573463185da20e060b18a4558142419f53ea608d4d585338d5704fa332adc7dc6629151b86fc60ce33b83) (-0x232a167198a8c2fce58bb27f4a51934d2b96a65ca3e2cebdc114e2152f629318b272321eba247d16568a9e29bfce6d1) 0x254ce49dac16f8c9229adddfafdd893579376a75beeb5a58274f8cd418645dac47218c34c80c87a0820e40ab0f68a93 (-0x17b579c0ffcecc531a5e5c237e8e4a23ffc5fa9a5258b048790b5d291e78e86a720ea10a0a12b0c7c259e32ee0533fd);
  Add2 0x4cad550feef6eea7aca18daac6469d4c15cb740986b29cb0793854c6aee6adb17fda3d9452bb7b6ea49403e8742b0be 0x11581cfa02a3e76a91d864ef585574f1a407fe2eaa37f6e416c5a645cc7e62d0e7e34697a896b9a66ddbf807b5e44edc (-0x2f5518131351120704e00dd75984dc92087d2403c227b3069ac643bc95119a3c0db0ae4f18c33fb0cbeee2fd2ff2b05) 0x1fa669c06bad1ae193c5318b4207055cb870476b869e6bd40e2dac9cb899fd7b8eda38f37a22f2cd122e0d576838bbd 0xaaf5c3feb6917266cf52816a6f6de6857f8d873a0622939020819b7a6a12051706f6fefc80358b89c0946eb1eabd84f (-0x6648a1474f74ca5230e123e9f5d577255b5881413a1b232bdb4c6d098749924d14dfa835e4a4a56528ea7f83cf99e92) (-0x265c1d86d53cca3cb0afdabfe26c7cb8c0948699512b4ff3a719216e247a1215367e39390f8d190cf84020dd1ef8fc) 0xc382d4d710d013286f05b17f03f187d559b2ced082a31ce9197ba4e64991790e626e84c7eb5566641c659b7f7f33511;
  Dbl2 0x12387edfb03ead83bf45e943817afeddaa5c3a1239dd84b52777b212cbbc7f4951a7faa4166206ec7ac3dc489da917c2 0xfea7335e787d226182ac7ff95cabbe6f6bf01b0e831000015528444294b3063d9fb6d9397b2c41dbc44b6f1d9689587 (-0x2c17e2b2b27aff687c8dc395abf5b1e1162f101dab3ecbb170ea5a8e784cf41ec1538723889dafcf393b17a6981e708e) (-0xabcd7dfb607267e8cb354865de6c009c2886ee81370d41412568125fb0c6b25d14a0b30cf555cb7bf0b19f5560da6c) (-0x3069247d1ebc8fd049349923bd36c17434b9d60baafc81dc90d7feb20a410f33ac2005f188a9d9af93c714c141354db) (-0x164dcba9861303cacc75405e6d590fa4d5afe4e97df194c917b17eb9e178e345742e3ee5c167c53dc085d966888371ea) (-0xd93a37c163848e13c43cd5b733fcc0af3cf9f87509d09ca3658b43f3de81b077bfbd4012898b26c38aa0bedfc1e1948) (-0x72a0015e715992b12955dce44fd2abfe67000303f7fad40d0efbbb397245f3cf53fef25347bf9594400ea362c05ed86);
  Add2 0x3cb77f28673a81f64a8b1614065a23f9847d77b55c5e527bc08ffbd43fd4ff57b893e26330969de9d74428a9969dec6 0x4fc7deaea40dd434e1d3f0e44e8a0cc969fd4e73c7486060eae48d81786e124229a7455c03f63a3c5068084ee231b5c 0xd68c299476ee39f7e06519a44b4302b7a735988f8cefc3be3344d23838e5f228b43309afff17188de0e2bf90c1a3a3 (-0x6c43653ccef2444f2001d375fd7b221f9a695074f8ab863f579a34f848981d56fe6e63cf97b3c82236eb77a2b0a9f4) 0x67001517fa8eb29e4d21547f585a548b518d3e0cf94a124bb7a5d76785b320c0356eb4c164c698a332b7d7508a98ba (-0x1748ecc68150e11cd8494aaa4f428b4de6be6c3318602530f458e50b58603ff2151b8d8eec13b05ade55b8ceca8ed49) (-0x66bb5b6907d30499f67b2713b1a55912b3ebf889378e47c06dafa7eefcac3bb3459b5b8765fe34c1fd20eb1ff9dd69) 0x3fe06ee8cca7b68c409537dee8f786303d6be55e65ab86844e66a1a499292e8b1d97017ee520f89fbeba279725f8d3f;
  Dbl2 0xc0756502899c6e33ba88ab15c2c13fbab66e460c7b7609fe75de84895bc737df0acfc9d3a104127b0a2987687d10986 0x2246272e161be99c83d77a198798266515a7391d36334fe413c9b40a682eff86a511cae20f334ccad0903815ce99c4f 0x1cb5711e516f0336ba2d030ed47a6129648de949a23a4011f970d26afc9d229e4ffc200f464b476f20383451eb6de23b (-0x66b5077143589330655a643a50c24a7da77a7cf1bc94f6bebbd14e8f692eb7e99e4411f17f7cf087c272950360e6057e) (-0x56339623622f131f2c461fd7ebf2779bd0425af62628cc326be15dac7507155a6a112423d02ba981320b220b93d1840) (-0x1fb541e9e7c9bdfebbf05c8ecff482af744251c398bf0f6310da3bb93579cbf6093dd55aedc1b81333a902556e96315) (-0x544fe68024ab22faeb9b1887eed3d5122c9a31da6510b9d3840398acf292e0618ddeab9f16ab6f1691ec1f09107c3c2) (-0x100b794ab4b8a9b82bf8aaa0917823782ca31d7fa07001b00a6940b627740119fee842dba5e97cf217f1f417e1dd531);
  Add2 0x16d08409ad820d5b9d6ecc846ffa168c394145bfbaa864032e7df1b4fd0c515145c28775ce505f2c445b7a32721fd03c 0x339fcd35113715eb0f0ee6f64b4a6b1b9f2b25c2ea3250c114691fd6876d92103fd87a2d77d10989e3203d5103c0eae 0x1d2f7d3fa1ef0bf5b3474a66095af6cfd114620f956c760f5ab7621a69edd767cc022bae83d5d1e62a7ecc19fb42479 (-0xd36d8ef5977baf12214d66cce79fbbf097cd0f6e9e613d1035ab2732eb9d9ef2eac9034a4ca2faaba2cee04f5072fac) (-0x139da24e0d98d5b884656d8514c3c71c458b3fca80838dc689e2c589df6b516d1bb8fcf75597d029e611ba7ced084a34) (-0x5a9582bab739d7435bca285cce619d7137eebdbf138f3f4dc4491ad15eef8fa06739d08b422c2d891b253a7b4f1a801) 0x6255dda25121da3c79ba03a35d2e86eac35e21e8381c67ffc83b99fe2c703e9126abcb45e8ab40ac9691eb6511cad53 (-0xf489bbc6144f6193f8d6b6710f4f859049588e65d3debcf3552ee2bc3e47b32af40570a71160d7e153a5de8fbf69181);
  Dbl2 0xc286ea7362b9cb07e96ce8fd47c95bf6ea48b58f06d6d6cf54303f3e0b6327831a3cb751413ef72e09792e09e522bde 0x4d746ab9ac4fc89c024ba8ab505332b951bcf0c31fe68d60e591c3905693314abe91bffa9c3808c52809452f521d3e2 (-0xfbea50de250caa361afd59bffc50c98dfe4a471603bc127fb0c753b81c6b4d32647ac7f2707dc64bcb1051ccc66922b) (-0x32328a6a0684c32345b2c7df687f36c0e816d5e34744415aff65e54f15aeaed2c4b55e0eb2b84a4ce3be1328fb7103c) (-0x4c87a1ed8d082d27a4ac78c6a559cb5df43da7b4b5e17e0dbb4e49a5424b16ec430fdd7d42832fdc5253910899788b0) (-0x486d12353cd6281419a2f9858e14b59b5369caa6517958e2212524463e5bcd171e3fe664616141b986ff7b94b3d206f) (-0x460be995e51fd66a90513ac2ad331a7352fcbd8710c23283bc20fac555903ee9863687429fd333d4a264cfced661aa0) 0x21dc4f20fc1ffbedb1626a7afce77ded30c65540a3b2e30e00ce322d8a27b8e46e3b8aba61c84d228bb99aee07087a7;
  Dbl2 0x2acf2cbaef78fd311473490827338f7684901ce04363e7e156abfb2dac6233afe2111f8ca35ce42c17d747ddfa6156e 0x5bf51d730a7fcf67e08fe44b32f7f3d93d71abe0029ad6f33144a4cc341ca1c5012320b778331e15fd82aa3576f066f 0xe4030d89b31083a3668c5ddae53a2fae80986dd13100d48e56f96baa5e088d4e8cb433e23f5b244710663eb8ec5b9ff (-0xbcccff989209de3548703f460769fcbaa0ce4dd42ac890c8bdf549fe3ee3ab3c4ecf65ede4bc35a56d9998814c8d216) 0xfeb5f3bed783be96ef14864e973f591520ba3a02a3deb49801d0143c9507a809157fea73769898992f8fd1c496b7e2 (-0x12ec4eea66f810fbf4eea27990713abd7c93b1212f4d8e26b772cf828f3732f6ab808ab4b271e1e3688c26e7f3501e7) (-0x7676ae73cffb5a275c964a30ba2a426d443c2a06095ae9801435abf85845f7a047d34a28a9534401f92a81f1ef82d6) 0x250c72affa5245e136b8aa5bca30fdab229dc3e80154bd418745c011890f32d49f5c74dd37b271ade270052985db1fd;
  Dbl2 0xe737de7eb259c6675ea10be2b5322fbfd8568a309fb25097048fd72f2c605fd1fbc0723a4fb30357e2b9664efd3e774 0x7c83024e53b95f4dd5ea6b8edd11ce6f9b23fd3607bdcbf3ef5c54638ca2d6c38d037d3ab746c2c183fe9ea4e5f66f7 0xc8fe80fa71ba802f77a9974ba6cc278e59eb9daacbdafcd0413c7d5f2dee01fa1662be36539e961d132a6d4d8727d0e (-0x322242b1aec79d3e36ddf512b3904301bdfade688068a2213c54a4b88fc463b98a16c5701ce1111da46a8c15a10b8610) (-0x5b3b7196be2fd16655f2e7a273d8262782e77efcef5323db20bcb9ff53fb7648931badc43b1f7376c943468b9747d54) (-0x8a6365fba9e65307fa54c0f98377c64fcebe568f78da66265f3afe340329ad9f48d7769b46b6ef493532b85105bef53) (-0x5ad337fff7d3a9aaa03e997b14d46189ea1c1f780c1114988b1d56230eb1dbc657ec02d1766158f311ec7ca1a9903be) (-0x27cef881be54dfd97615a6df2e6445c1e6b85f137ebaff3db5361964a8667c71945884c8ff79990574d3d7edccdbdfe);
  Dbl2 0x19421ca24567f51ea926ab788f0cc7ef7c7ce9036696c8b407341b3b19bbeb2205c8250f92d834f003c387f2dbba3940 0x50919be8c66b17ad80719bdd7c50ff36205c242a70d1589bb6a8e4e727b064567cc4f6f50283ea4d21d2d79b107c4e0 0x47162e719ad8552061c0ea7d38cfd80f8a5b45610504966805eb24b783690275974e39381b81bef89957dc51a4915ac8 (-0xd58092125f0f9115c772fd7bf11c754ecff6caf2dfb25eb9aac75622fd24e6947efb38991417377dc78e4badac6050a) (-0x178f014668499e77d05baefa587cd174bc5597584c13b342cdb395a0b4fd639929929e6bffb069a814764b948354baa4) (-0x9c83ed26f83ff3d195041e6e3cd9bfa1d224982e4ea788140feaede2b6300a01081f66ad361b4c98b00b59fab80f1a1) 0xedb916a2322418157157ba210e471cc7d83a6786f265a49e0a0085e3f7b9637d3bce0089cb53bc0f56f123483f4fbc7 (-0xfc544a1eb1f25027291cf7641112930a8cfccb4c1c4594e661651f0cd8af8f5547aee711fbd65d863f3481ae3d34d99);
  Add2 0x1627c6047f28ebd2380e771a367deca845095dd5d499ed093bc256e3cca322f9b3f79af1cdf0374a50deb8091bf4ef65 0xb619bbc8bf4ba11b6c8013e7c25637f98c6997bbee0ddceb318bc59d39d8924bd2cb337b8a07b4eb0e85bb2c8d200f2 (-0x9ed92620931a2798142bfe98d56c8951bb64f0d7df4c93e696aaa3bfb7c06a3881b9b77b81406977b812b46f4453264) 0x36713a1807cf319642afe465e1bcff1f0e586c9aa36a4a8d8a0815e7c205c24175bd30b0aa6ba1675d25734865a4549 (-0xde51b0aa12529a5e045119adc7df08562e9d3c76cd87f3e18d9c479e5ddfeb86e2adfeda05f465e998a30afd3b0c126) (-0x1364bea809e3b00c6d531d3f171ee9a0b30da91e9c8d80cc6fd4b789f35a815a0d87738198795a4772c9453bc6b98d4c) (-0xbb561d7721a049d657fb569d455ca02d73cedd4efec3d9ed5e1194c0c5765a30810b0992fd54f89e422dd7159f39569) 0x1131586ada1a5e60421dad83ec6b019e55cb176699fa77936c3c00f26d387c692f14a6f2f8165817521a920d8a4b416a;
  Dbl2 0x164bd293a19970e78e95c8ba656f443fae76eadb0a5818611fbbdff59f54ed4e63c3de53b647c7b9f6171e8bb92c54f4 0x299d135e149116042b3b92135af324077612bba2e7a55db19daa11d62fc49f76cae158c4cc94059f31bae26e186e728 0x4d7d20f738c20dcd8235829a3e12ad56787ba5b8819d9a9399798b9528342a629e582a26627f53fe64e739906d701d54 (-0x293ec1975454f0dc8401f77ecfeb09c42ca1851f663a6b844ecc730950b099fad2697c32cff12961f3ebc1a01123e1b8) (-0x12db567d0649f382917d462d5adffa12eae23f2757a7f40bae28644adc6dbde57a31acd664379be7ab4a05b459033eb3) (-0x475c0e7d9af329240e1a6bd3c12a9f6f1572682a36aec1ac9f108b8ade987b4031a362a20353e7c990b508414349a4e) (-0x3b54e80d20168fbe6ec9daafc63bf98679fad623ab7e90e696649f2f31346bf9d7540cbc5892f855ecb7b67b8d194fc) (-0x44c2595630e7941cff6ef75039884efac57f0e966945030ae391557c28893dca74d89f0da61c0ca4deed9f5263c02fe);
  Dbl2 0x3b479cc7924a58f2e55fe1d2a5981e8ce45d182a4dadcc85e35cc900b144c23c92263f8efaf2e0828e0b0067f3a135c 0x14cce5bf8fe85b32060fa86801282c4762926a15e0e57d4f38de86fdf4a9f96195936f0d6cf52a8c9a4e2c7a2ca83c2a 0x468e1fb6e7868be3a13d0e951fdbcf1649b2d1f7f71c99f4c463ef4a1df128e44ac043e6b0decbc429a2205323fe21f 0x3c0a4100af608bbafd25ca2f2c2f958a91211494110393f0a91aab077677321971989e35949b444a33a34544fa081f0 0x101c2cfe2a47da9983a8b3e832971194ad1dd1d9e5e3a6cf4a07e54a5b395feab4c70c6a8ccfca6f7706861e2801b678 (-0x5ed585841e2c76de4a3505409f63bf21dd31050be274d94752dfefa508839935e5a6956ff83376f9749889cc02114ea) 0x2dc42d6c28a2630222fe439fa8e725bf27707deb4c3009b436bb16ee3df832c28b508d7574b9b7a35b62cc65951276a (-0x3182fdd0add68942e4bf1b96caa1b3bfc2b3adf7e2996e8ab0c778d0a0e653316e757fbe499e3c217b1277be355cedb);
  Dbl2 0x1558f50ef83f7e9b214f68e9b1b1b638adcfa26990ad581a9e9357dcc15c1c5d032afb2270054a862c3206ee459677ba 0xa4afcf8c20b1115726ce9fc709e2fde8572c1953e56a1465309f698d7bd8d0c988255fbacfddc57a27519cb0e66e936 0xadb9a3bd05cc0d1dc4802bc9107153f810c16ca5958c9519a6d224379f6c3fd4b26ec8632db09637a5c4aac1b19ac1c 0x4b93776ca4078170a118d37ffe07aff4a853b3d32ca4698b1c71d9afcd40f6b9a27f375f35508797f05c80a16f2901c (-0xd7358927d7a649113914299d233e21d4078d2d579af58fa76fb2f42d0474f34899106687d4d76071b086b701b3c8f94) (-0x10e641c96a605e92a95cdd1ca399c836b584fd2a6cb27e5f3d7092fe6255199a5203d4d5bc60f78304d69972d7325f7a) (-0x31fa6cccb408d7041b277d9c448f77529497e12fa4a76c6d5eecfcde57eaf31781e87dd7df135808302fba6d8cb0360) (-0x22c2d3ec28ef26bbc0d0e6b254b2dd13ea9b81fe25470296963cdd91e96f43a2d04e5277b833b03b6e67eadb8b848a6);
  Add2 0xf6060621a8fd3acf446a25b4c02fe3e109a21fdfe201da5eb6047a341e79ba072d43aee67df8209cbc05386db46b010 0x184c0ecde1743cfeb994dbeaff2d32904363e8a05be393b2e21e795cc0be828d763e77dbfd9e9da11074db4ffd0468c2 0x85e2438fe3df0a205f35ce776449e667138898a056539743613e5cf79fcd5c2b41611742a4eb8e786c68be024e5e7b4 0x41767c6c703222ad7cd2a1dcb642f81fd6abb7a52bc0ed0faa04bee07c2d2efcc1727aa88f59d5ea81420a9acb7d50d 0xd9c1fd3f3102ed2e20737339fc6886680cd5788037cd22fb93935198a2c983d212e69687fb528c052fe7012d15ff33b (-0x1cbbef8bb64f54f2372e23ba03494c8378261ed130aa9668e72a8e4349fafd5612c4bdadd0d42640373ad72bcd1df559) 0x7ac9e9ec36f554f9f881bcfc208c9e0c9e1f59262cf68df0f4bf0caef130d79ff54b97eb19f994c2a5a62028fd1672a 0x1228180d7bb6e660577707d7d4cdd6e0e28ac44e0e20529de877ece2e20a79552253811caecaa94ec54a8de3f52bc781;
  Dbl2 0xfae0e6d0635dac2b4f36907cdce074c471c1c1765494e26b010eb44dc4557c5266a9de80213ee1f4bedbb2572d85282 0x9b4caa9a34ccc2247fbdabc49a22a6772315bab430de95d2322b5df8189e8a5a6988c44cb1b44b862b9f623edd4f9b 0x1258eeb028be9902783e463008b4123307d9d48a965633829b9d9b123f3f27054d5de26ef19a43db15fd6d45abc37aa2 (-0x2f6c3fd7ee79aed593eae9ea780a3b84e345f20c60ba14380bd88f13a1cce0103700315d189544fdf5c4754d238b0d5e) (-0x970c22d1313c06cbd37302f03ba3f256a68b7f27311df4193d64d6c182c8b6d8db2f604ecf7c39e4a4d4a9f3620d24d) (-0xbb48aa91ba2f1c2d006f9cb964d644207b03d2dcb0188630ba70863d5247afbb73e6e9f242308a4d00a4cdda7f09c0) (-0xab5c862627c8135b61844b327758cee72d0364cf681fe5282351695e311ab4da419d510f7c07725f9ddce209e6cbb04) (-0x1132339690aadfae3504f94dcbad031e56bd43cc90cc8164b482fe396d99bc9d536c53a2d9afeb30b8095f09d7c5aa2);
  Add2 0x198364c7b84cf0792fca48000d28cdf07eea4235febe7fcd7b6233b73f00a8dd1bfbd922d11be75df739c23d653a87e6 0x68a4623b5f75a904585d2b13bc2bf374f1b890664305fdf0609fb65ed78eb4541d0e3752a5571a6f8760e4b60f7de81 0x8d21511f5c2c73fd581d3ce763b1c6ccb17ec166eca60f938bec8dd6a6b38a5ec0611cf887d5278ea10f03729286cb1 (-0x4430d644d79d32fa2a40c984a8283cf4b279b4295767ce50b7cc120d5bdb698992bbed18690d909438153e33e6fe63b) (-0x1763013aaee7ac0d48e5201f025305de718c4f21668322013f18b2a510c7240aca7f592eaebfe1558883eb8a9f76528a) (-0xcd554fd87785aa9eb4de45b9e3ffed5e488cf8cf31a5873bb5534592fe231d67be049a2a0c0ca1fe60c8ad9634380e0) 0xe9c2efdd35bcb51a5e108a25c860a41a8835c62324adfd7e44cb5213392d00cd1293a8f5ae14e3a72a1002776af93c (-0x33ca7e0635b22f0485a8583b0b85e6f9ba03606fbfd07a47727f65dad896a3d6cd54809caf8a57770473e290544df63);
  Dbl2 0x11b8b622750774bcc8686db9c71345806b1a4f5f10adc0c2e1215d37165590d044c6dda5050781a00ad72fe16281d405 0x14d86a4ee1ad4b429d3969f84fa4f3af04f0711de6b1b75b210c3daf40ea7e40b77fa3de3a09f5f3c98e2666893f169e (-0x6c85fad71b2f6b134243de18cbffbba93720af016f3486a8b889f77b059d040a6f95ec1846e02c32694f585041e1c03) 0x29f39425c00f388c9f25efefd4ecd1fc8138b97b895eace08b2153c7d3a1bccb1cd1fc8c4b723466a2415816eb9a35dc 0x4a20b3a9109a605c760ac8373eff28d253d3f738980f27700dec6be168621db2269b371b58fe671d91f3f256783eef8 (-0x1c69672996e7d069f9362e91112a7f4a61d8808f9e1097951948fe6b0ff24ea8652a281f04798ac276a8c9e6d33e4901) 0x149552f034470745a9f20f6c55e36e539af745ecd821cabb8308acef56cfa7a90560e54a004be6e0a5aed50e02891aa 0x15484fb4073b883e3ebb2fe2591ce4f652e5aed2b935e2d4e771c5553a470bd2924795efa2eb0efb59a99104ac85c18d;
  Add2 0x19fbe2f0edc25934dd2ca8597c61a24e71ff9c663e44f516608c99269d77a163ee87892b46d143902cc17abc6be59615 0x10eb808f502695f4c14dd62f56f8c7e75b766506ac6b0054c7e985e6f2408ca5bb42e3a97ecaaf1e27e72e7266651785 0xeedf6be195f02ee17f4ae6b4131b466e5a97df4afe0477e695c12ad8225a0670197473e0568c13e5e538a8b9d5fa56 (-0x14dce06293cc51c4845333507f49633aaa64c57764ed0aeed325647644566e5f100fdfee63e4ad1f44a56efe274c946c) (-0xef45d03dd1bf9c91c31f2c208a4159c7bd21c462b7dfab1add17de10979a1fb35c89d06aeefaa065a5547f4508b5f6b) (-0x21d0424c0019cd16a6dee71e4bb87f7da498b73fc0034699019d3a68a8f4dc9ed56188fd5a3118f1aa4e0563685b6e78) 0x507ee76932e3882c1cc37713c8896e02e2cac7492e334ed2ce6846c31a5f98b9f7af8322e64c5c6855d32ff7767797c 0x461ad0509ecb2153ebd20b35790da4de6cbc0421f7d8addf9c5c212ebfe6c534149c0b7b26d6d5208a828cdbb08834d;
  Dbl2 0x6c28760e0556d78cb03b1934432b6e3ad62942ba650dddece2e624fd435fda34c42c0240b2446d69a449b15fd924257 0xebcee4e6c7c81914dc2ded126283452a1929c3b89b8825445d70e1941b3ce775c887469a8a6efe4424a90b703ed71da 0x8e4b6ec50b5ebae1f86af49d82c1d11d1dbe0ec15a49cdc4c39718220c442b1613363b16d5c46ef22655917b67f9fb (-0x74eebff5ec42bc5fdf02d013097d74ee40efc1b48949be3cb1be423856c24fd2679eebd6d4f898ff9fae3c6a71933c02) 0x69878e0b3293ac0f63f7a346bc580e9e1b4c5f213d6b44839df7c288d54ba0ebd6c2de94e6f8315ad9a0f6a26e735e1 (-0x7a992c92ce14196fafcb7cb3a31b38b6f754e34fd7e5460a300658e5331464987d915eb3019073114c9e7854c4a136a) 0x68f62115f2248ab73c5f2e47e53e8491e22e9242160de99f3db5741b7cedf988e98e6f39cf16020bad796c4b1a169ab (-0xc4fd57d9c2ae4add0fd462a2d77e1fcbfc745f913618282d3d02601e17b02ac825cd1c2a95f9d2e7a65dc27f89e2075);
  Dbl2 0x8ee0fa33a48ee0b20f3225c80cc57dd301d10718193a47eaf5c56ec34fbe5e3243aebf5a61e223b8aa91723c43b4fea 0x125b883ce21a96585a513ac6b0677addb6b137fdb1f3e0fc184407333cd6fda565ddf8cc89c15c9291b961ce7eb6df06 (-0x1bd8e5b70142cd5a00dcb76664dea4878a7aed25a5557f9cadd37280fbf8955351b2e1838cfb340d0fafd8f9ca243970) 0x10287abd6b9a47bf944df8d79787c4b1c96a960f05a998f42916959b1aff7e2fa50a100825aaa5dfb51d20035f1b99f8 0x9e4932397d374cb9ae36c5dd5672dca9ceb852300ce06ea73677cdd195232d53ccb5f425772440e4e26bfb1501934f5 (-0xc9babe97db68891ff0a0e4876e33814230e1d73672753a4909013daa4eb1023462bd441aa062287b4684b902b4fe5ae) 0x3dfbed49af3e3be56b38f33055ac6af0321ff5a2cdbbe2e19dbeb4e9801446d5ec1b7616c41968eb66640cb739c339c 0xcd5b69b4ad3d0e8bd600413e75261fbab034100fe5c832e449395781e3d4f57519cac4f4017eb644079bd887360af4;
  Add2 0x3e164ab88779aa398b3171f0e04c02882dd2242578d18840eebff975f5cc2d6a130efefee149d8225537c7499b7d7c7 0x116353dcb1b8c37de626cc0ce6b419f050e6a9e9e6c4aba2406ed4ad6cc74ebbc49b6145ab7d8e37ee4717837964aee (-0xd62d4e3e159a9a9b3ef789ce8108b2407c8086e7d7e20aba3f5de00be3f671eb7c14cd6fae40420d7c94aec455ed8d) 0xb7e45ccce20247d812662ce65953ed4cfd83da82e317ff4d86cc188ac42cc807ab6fe98b673982ecc8ae1e34bed9a8 (-0x889c78f7df2d0b4b88cd9d3992671fe22052d06c3d483c915fb4886c5861962b3a258bd6deefd3e59c20f03cb7d0f6) (-0x5307cec9f008adb4fcd08cf1b52d0e1e019cd4572b8f18592ce36af55d0e015c389e82a7d36fe494a4bc9bc24e3e47) (-0x2a990f0b47e1f51db6e95d61a6192cf105675e03faeb804b0500d83d1148db35d8a63875001251b470deb7283f653) (-0x1bca42f497ddd80894909cccfdbb3f62e441690ca31ce9825b10258b8f3109acf7be37bb3ea65d81cafaa7d292460c);
  Dbl2 0x18edb5f25a245d173b8493a13c10df4bfb1082f6072cfdda43755e175b294ff91d24e00f5743ea9e8ea1972baa0e7669 0x14347ea92ad0b54fcd245d11a0c14751930b0e69abd12696adf6e99d2e22128d206ff4a1f5bbb4d33253791e74267c6a (-0x25d8bedc019b3db463246c714bff37a975520cc97749919107ea0afc12fdec9073e430ab9228b736344f1d9a71d20e23) 0x1c679388b49e8186da71e918fdc17ea0cb63df7ad6ec3eb9bcb00ced64ed12202126f0a994391f54b35265a539b329d0 (-0x832c0282498acf11da3a084ab6ef625aa0530cad19182a0f7fb04484782d4935c323bf77df95ffccbe71fd03568de15) (-0x26bd15d513d99bdcb8b6e3b35db7e7787a644e4c3d7a4168f4bcaec767259197e947767c8ad4a7c948e63102cc5b73c0) 0x3332a0da4f977ed898092d7be26652e9c97d16c1aab122ab01eb26a3ebf32007e0ef4305540e8f404f0cc1d2542da0e 0x145f0110335c7957a85fdb7ff393c9f533c8af64e8436752853f2897f44c160572bb2ce17afeca5c62075f200ff4ea00;
  Dbl2 0xeb5dfd5918fba2421de6169c22a079ea353c152f8e7c62eaab34cec13114d3b2a1a2c2fb55fa92e0b91d0b3235df447 0x1611aa5bdad7423662f2aff4c87df85393b934cc61a94439a90ac8ca1340f95e835de57598b81fbdf0824c5d5eb7d6bf (-0x34748f4a735b568a281cfa0f2b34ebc75a6810590e65205ce8a4ce7b6e76931d3927b6563cd85daf1ab305e04e8b269c) (-0x3d9dc20dea7d376c8eca409fcff1618ede107d4a7fbfcb148a2a4676843013dfa6faab5167ebdfe14b11b155c038da3c) 0xa685f35167403d78dbf1e7a04041655ec9f95fda68546a478b54498e923f3785add7941b119a2c23129210587b8b934 (-0x18f7faf89f80ccee1e29fd6e29d86a84f64f7ac2e40c3d71f1d1b069d28084e2b6d6a9c092a0af6c6acc637afe521b4f) 0x49360990880a1807554cd62cd69fd9895b245d802d64bed61da68db75b5b12e4e0321e3dc4e59e3ff42f17e3e7533b (-0xdc7f2974a3cfcae85fb1a82beb37d315f1595a9a8ba557483fbed3f295b85adf3c957c867e969bd8c06cad7e00c1c0d);
  Add2 0x16d47a736d4689e4e57b567b6f5f876804e46fd5ee65a6be090c0ce6b5ca5a8ec1b09cd2adf1714da7744317f1e6f171 0x1713262aff8984f5cfd40d135a8b5b93ef05a34887859d6a182a6e20d24305198facd2d5e3ea48eb844210e6a6be4f20 (-0x72a64c38dce645402d72cae3fcecdce5f4c8ea281c1375c33906002ab493a27d937bd3a7dd17ba7d320a173afac769c) (-0x1b85b0a7825e9508101a1eb0f23b9411cd7582214ee5c9904741f84a983048c047611c56ed3f33dac44235ac3456589) 0x6ea1bcaee47a1bf53affd75b9242f3482fc2932aafed06883bbede07c51ea8ed960fbc57178b6909e7cc6a38e860b7 (-0x28843137627a7fa54964a6e84c43d248533d301c6a9e6a68e3f4e376bbf999636ee96d8e15c825c8ed021e01a9d0177d) (-0x7bb8b1f15cf4189584805b4b8167e4e506bf36249d87667d64e98fb8b601652c165f4c824eb8a614f44d1f38e365daf) (-0xe4578195fcaefd29e7d4fddaddccf1cba67b2e1782d2764b03e5f8308c71b6a36aee0410e8cd6f81ee7d81a0c054596);
  Dbl2 0x1d48663afbfe407b15283185abcaedae4d0b1bf6899258489021eca46866ae17b3ac543a891444d6f0bad2f06575cad 0x793f3dd704a8c092ab197925fb55fe4b97819b14ea81f8469962eebc4e749663e8999f081c3a12e060045ddf311357a (-0x64bf863d780309f91c07dc72ee01b717322f9d9699c606276e5c5e5841c9bfe83f20099b3b4b36103c06e9e7f30161c) 0x984cf1f8f6a6484835a1793520988b4155a396ed6637a34f2d746d7e794d2df28d47fa9b9b3253bb33fa199b6c60cca 0x21459f49104ab388607a933cdb8dd48b09373b69e943cfa313a59602da4efbb318a7e9dcdf98a1faf2bd66e8ed01b8c (-0x1111164dc57199f534015015f624314c685924e44fc7c00827d009bd413164478037cf9a855b194d40824a72915bef8) (-0x16804f30b1ee2b1473a8c82d1ca5236498112674917d5cbb2266040e2e8513033c71f9493a7edb424cb556ff4b01a4e) 0x3d3689a390a5880f75418e5d1eddebd9f2cb5ebf490d0eeec6e3f0554a9fa5dfba019d5df74c6a245e4f9a0b4bce3ac;
  Add2 0xe9134c053f6f7c97b9735e7e533123e5a4458f2a3282a0587aaa1ad1c4b4548104ab0b5bab01be48ee5c42e9a3144d6 0xf31b5e7007af5c96a0a82f7554294bae8a295e542feef7e84bd62876acb9fe8cabeadddd1a5904741a6505a9ba0c132 (-0x1ad7ce5afdd1f44a3c05552e45cfcd3c8a09b5348c69d25014c79f62218abd72642b80a14491d1ad6c88a8d342f084f) (-0x2b1925020e9e1ffd60bde5aafe9d4bc2e54b11eea8103863c6e842255edd58b9f0478d85d5cee37118a1b835b7e96fc) 0xb7b1ea93d0a8385eb0b0db8dd88553bc49c7f23dcb38acd99ed8f0be8b220f2fc1ae518c7d107613adb0a44ebcd16b (-0x1105eed33388be2ab03d0dbfb1d16ea706c0af204cacea99bad5536c21dc86c9273a8ccd4ac88d6638f33a84207697bf) 0x502b3f52a8a6aa062f958b08a9e6c2ee9f81e5da4c02bf1eef12a12b9d043bf2cffca9ddf000891ee452634b07d20a4 (-0x536028f5ec822c0a5167ef965bc9ba47c8a7fce707a77fbadc124d596497bc10ffd4ada0209a35bb1990d4549154470);
  Dbl2 0xb4bf7e3b88000fda24af0db7f725bfb6651042ba96d94046eccc93623c7a4554b959261fe85d04b90d10dbca6ea53d5 0x1ef3cbe43b43ccc869a81ad8e73563d80bd26195875e9541454d4e7add89b49c647ec411d8f014f564d73b361a6a78d (-0xcf6bedc46df5fb35ed1cff22551a61871f64883a8027dd6b697ec808ed623c63638c8b22ff2ec2de39c9d33458f9dd3) 0x25df10a42811a6ddb56393511e7b5062b44bbb2f65394fe008ba843727b7b3d155a2b774c5029026566423a950459e2 (-0x4c37d13586b52fdf92d76a0ba64ff078655c1f8b89cebef500ff5df203938931defa0a82af62ab311071f0491c17809) (-0x1ae48551b2aded07eedfbc60af69b1155fcb135f4fe47853a9b30ac062c203121d2e9d142e074f8447cdc5179f51643) 0x19b2b543098a6ba38407876878bcb05502ae25190730cd0c8caaf44a1b6537e7cd310245395127e5aa19e6f8939ad42 (-0x5dd163aad25a021b8d1f94a9d2e7d9e594ce6780b36d779a4deb1a9b9de063edaaf478ce38797ad3e9518354205512);
  Dbl2 0x17f491338b895ea641ac8b2aee6235e39b53b64fea9773b53a0dcf6a4df4bb9038731e218fa2752ff9a3ebfa9beb4c4e 0x19979d4f43e25991fbd74319f711b87fcde48eb2590b8feab4f7242d88fc630df9350a800393df2a51ced89d7ff77dd7 (-0x3541dc3f893d87b5ebd228886d3a312fd60080f04f00728275966f58ca5ec1fb05b10651b31abd2aa485130d78287c8c) 0x198ed73d03f7360994052ccbcdc0b7fcaa8c4aa55c0231177bdf7e4f5b47208734d87c31cae523d242f664c6fdf7714c 0x31e70aebb9be4a962233e78a0de37eec3d267a87dfa1b892aff62f14d2f517bc9f8bd299ac5ef9d7b5a4dfca5e61563 (-0x2f26d74115519f65d6b61e5af58e28676d368d261241260e1b6bf11b0fd1a9cffe22798a1d1124a18eb376bac20fb269) (-0x19754664bc4128720b9eba9b15a9e7b1d93c6aec561f2c02127288a8334ab76f088c4db4ca908452b66ff37fc4c8045f) 0x366f671ffbac0ba02802e9a5f3ed9da3b693925267f322619a1ac84ea2847e017bd40547a4058c2c5f16072da591abb;
  Add2 0xc021f75dcb760df47dd332f53b391ab64f8b22c59e3b68c0b2c3838f02ad939f213a3768257796eadf95c3d428c249a 0x126a216216222f7f348f74db151d0145c042a95a1fdf3dee1a619cb13bcee9d03d3123b733b460f228c62c1265f82945 0x621dc186354ac8274e8dbb82876eeb63ec511044de32720bb0ca523f68c0ad74bc60c910811737c9936924797a630db 0x2d830403ca374dbdbcf279e0449dbb29b8329151db880971b55cff913683160102d6a26bf3b89f5f1df29adecd3fd8 0x77eae581c7f02a47a976905447668760230994df19fa9d89454c01f544fa5432215b52ac122fd85da1c57ef92c2bace (-0x1101cfeb29e14e02bd2b7c10ca36ea56e59a24a4e7bed197f7cde31d8c81b76ab913b0ff136693ccdaabd6dfb454e502) (-0x61b856681da09fc2181b1ffeb80858697dda3efaa2a0a9a67b0573e114f1e5110b31c72ded3f62e9433d301becf0ff3) 0x3f7243ff9647ce7f7c351f2ba7418a06b36ca54fff249d08718a9e57f46c848d3e2e052a6ea69e8df8bf9489d436113;
  Dbl2 0x1931c07e9fbcbb33f28f587fb339112d3c467a74a52ae5a45c64b15a8d7f199e0e335e2b286296948ba0bb4a38577616 0x138d2b279492e950d310bbce7394aade7f1ea90dbf919462d055a321e885b8035b67ab7bf966e9661633894e7411adb8 0x616e37ffde116958a0ddc1100b3d4699f233322d75212731a7428e7a05cdd1ca6c8a7ea079ce341bbb625b3af0ca3474 0x3dda52dfc5ee6d28f1474c307fb705d3973ddc8690ae3bd750b89b2cec84690d3d32418b8a9dbb7a6691138176d58b4 (-0x9b5b7614173bc5e52862ed029558a5756c39507953461853144c855ac23788506e1d2fb0fd25a306ee534ef5f56ab98) (-0x25e29700724c10f08e1ecb1cfb25c74c42de23fff9f5181a568b569256669c2c7efc9bb7843da59d8637b039c8285164) 0x122854e32269f738b1f3cc20fb54d4547708691ac3fb05dd6282b69b0845e7a5535cfcadf593b865b0c7c99bd7c61496 0x364abd2108782845afa61842467f08bcac205bbc9e6fe66e724ff8b94cc511870dcdd3ac0e480a0022e73c700cb480d;
  Dbl2 0xa9eb5f2139581fcab51e4bd6dc130885736464fb8109abc1446cb1450bf93fa372234f565bad1143fcb2ef126b44ff9 0x8b4d462e054638b746e1bbdc35646f72fd6945a8ee5a35f740147a6cddbec5b5f0470aac9559b9bb1f0c4722605a8e8 (-0x2bf12d688d053ea9a1ce54d8afbaa27ec0c4df1310c80a8695991ca73ba941d0f3c5223e308c816b189f139c3c4ab54) (-0x3da7b96965b14d118e8153cbff7bff440e5d8928ad1b990da3ef2284c4563c9aa0118c066b9ef2fabab8ce6d596564ec) (-0x16c147f21aa94c04d252c11f8f87a7ba0064013cfdbbbf0d6ef5351eea1565bda21b8efef4dd3403af3ff2d5947fd36) (-0x71c7bc6ac30f2a1fe664f324853153e343c54b61ec60d3a06a47ad5aca543cbfd2bddd24c5dc8d1d63fb631d39c42f4) 0x39c2fa0fdda0ca399ab090b365b1c9c65d51a90239d9968943eca8864fd1b1dffcd12731ccb48f96aefea89edb0bf6 0x12f6cef8474c97acba498a91f4775acc8a9621d5639c1247e70ed7d647493ccfee3269b3589ed6438e9b4ecbf901f9d;
  Dbl2 0x1600a0eb2afa6bd88fb884b04a90cf78dde6f5b6363873841c1a2a707af033a9b38671104b9298214ca819b691288f9c 0xc9b0094b98d0d4ae7a49de09f7804020a11aa2ecb88b0d514c5bec05ac1275d8a7f72e7c44c85257ca4b32342d9f06b 0x1510a4fd43801e7ac5598078f633dd5ddb2307dca8d0983b794335b282f51af892f050968b560d15108e4ea461c81255 (-0x36bf8d7ddf2e024a8fa51916edfdb76200039b9b91769439178ce441b32371acf8b2ddfc8d3c400bc4a2904c451d43e6) (-0xc818d859c86739a17cecc0309a0d56946343328e978384446374d06e4592eafbe1bce4d207b6b11549fb2f39433ac8c) (-0x1554cffb345a9b59009a0b38d8f5409e353b1467c42cf0745d9043a6e5caf61fb409392b84956e2e48c736ff2d0e5750) 0x2878027be424f2be7dd2ce332066395b8df2ef85c11e171b70acfb672a99a2e2ed78e78341fd8e25bc555d1aac1a7f2 (-0x6fdb9695f8adeb34ddcaadc8f8b5db0263b904e7a11bfa73abd046c4c6e163d74271f6a8fd9117643f77f24895999ba);
  Add2 0x4f73ff9c247b98ece82c6b715720e19902876588d0c147027f964a31a5adcc770ce4cd02b21890a49ecf24dc269d1d6 0x7f8a2fe235ccce0e67cba5964203fd875826e51837db9f2ba1148448855b80e7ce1450e802a4263d46b47a049f2be84 (-0x1589537e304205539c39f904a0aa2889335d1ef7568ff9123439bd215a1752254a0d95c23c7e296fd7f59289880e790) (-0x3478706458f2c7b85b6e91873a13d9c250537b3afa5ae844537c6533aa17fc9f062dd1fe6110008c876891ebbfab454) 0x17ec4ee88884d2559ff94311ec166399de803ddd7c69fb578cde6276be076e5afbcf718406efb61470ac9e828bd748c (-0x30b5ea253d8052cb5bbc327f425ddb4c2d228f221a3fdf1fb2b75674a606f5afd38bf6b91c5f27418d9fda69023d677) (-0x1264e839a4ce6f573bb5435f87e89260aaa9a8271ae4954c472798a5504406f4fdaf2affdc7ab937f1e9b712163f99b) 0x2204f4d33076551eb4ff8269d3d2102062ed9bdce2a5a5998cf16d6e4b34873f08cdeae3fb033e00c2f621e243e25a2;
  Dbl2 0x112e07a3d1c2b7b1bee9871fe8bbc568b97a5be53926317a2686348612077d9c636cb465d7f16e9a958ebc6914682497 0x138bfa3fb74265437bf870aab762cfbc422c2e6af851251c3ed462c9a1e604e7b4bae4c5c2bea53d7fe04cdf5fb0fbbf (-0x2bd95f59fe616811a647ffdc7b8b0d76d0424e3b21de05a14d76e8001f04d857f382df349b13d7a379122d43c82ce4ca) (-0x2750b30c9ed39e2ccd7b75f2600f4974e6ba03b66d72cc7a8945b114e031e1a1854a471476e891b339c8e9cc55936cc2) 0x357ccf5e73aae1e04c5f1f92d5614e0535566ffc7fb83cb15e804bab451c8eaefc048321083b1687326dce4c37137ae (-0x19d3cf7bacac8f56343c65e45fa275dd854e6e89a76a15c331285eb1ab59c0be57594443e3a9bc5052201063ee9be79f) (-0x8c404cd711105ee67398358a7145d1626bd05f81baac7c31949c1eef97892fb42050609389ba34e74d91fe5e0cec55e) (-0xcff55438b37b6b2b1537dd2f850adc47a47f067df1b8dedbe2950b9175896d8d993c6315d64e121fc72dc1e72f982d1);
  Dbl2 0x43bdd7a6676ba0c0fce9adf92cea28f5e15728e85d42a84cf886b4649b06b9c1953fca544da8e3b8b7a36fa616668e9 0x153d5f2d18a4039bd0aa2b3c76d5099582c40e5e57433f81ad6e3a7c94f213d6a8ae79582586f33bd8899669c1dd6774 0xc61c6eaef90f20bd219a5a5c35853c0d7fbb4a217a080127cbc2c7e214d6ceb7d4fecbb553741ada4a65f7f6118e2c3 (-0x12e11f38dfa0e0a150afad756093dbf24da2d64b82775cd87b6c1c58124422b510552c0a2a09bfeccab9dc0efd00fbfa) 0x10a8ad1ea8d6fd1c0fff015867393f40623424edf309202eafbe12286f6c05464dd4450188a5269603a6607ce671f0a7 (-0x6ea8fe34e9448295ec4c54888b2ec675482451f98b2127a0c78f5e326903083d141dea6d2934613d158b53e33aba659) 0x8135bdcb0118e526fa44b6cef47dfb550bf12bd5ba0f0247dcac82469e354ce776b876bfc5472d60e699763f06add16 0xc15566a2932787584bc4dbd2d4c37ed64418b7731c5d3b007cc353760c807de6e5c9153a954bd6e54f30ae300808c15;
  Add2 0x5a77deecf2c1a6e8eaa3943c9a66408bbc3d889a14304bfd944aff50763223ca38c307580cd0105f4d099aadea8f209 0x4e95a2304b64d033781258c65fda8e1d560beb5890c4ba27bdc205e3f02c2f14ca2bc053276538c9aac1f981b9a6988 (-0x32e8c9c05dd837539a30db7e6eddfa5cb6597abe95055219fe30119ba62ac1d3a4d7551506f457aa05c7e72cc735fad) (-0x24cdfd05d63fc4cbd00f770fb87504ec0d8ba9f58bf109d65272b4871a5a527a4fe24606867b769919fe32e0db77eb3) (-0x4d41890411dde85bc358d042968c115682652ee3b1036059a58a979592e889fe2b753b01262bfd3b6fc65a98c5b3c9) (-0x222ca09762cd5ebb47899cca3f5df925278d6a62a096ac4ba6ae3835442bf290775e05cc546215d3c5abc07ce13497d) (-0x6b722648cdb7d66800f73f6fac0487d61f57dd8ecb724a869804c7fe78a35fb2b6155dd8b2c1402750280f52c1134c3) (-0xac8a5699f47464a8679c9f9b1bf1e8e639db44d1437e087f6815a424d67aa4de397c31858825d0abadbeb6a37dda35);
  Dbl2 0x17e83ee07e169c4de6cbda1971a725b95a1e3beba103ff604be070f486c9d9de90c1cf43b6b516ea698dceef591e2443 0x97d744fa544b0133d806defc2b08f80b13cc064f6a3438e7ccada9c6547fd9539a900f5fcb7f0784f55323488841877 0x37207919f0e1fd1f211f4553e7cb391b7e1acaebe2d94ba0b4033eb4243535b1649e4946177547772d8139d944791d44 0x4369207286ed5196d038c64d5bbd38de08671f472cb2f212c63bfd223ca95b1ae8cf7df1117c8a8d81b3bc17197c666 (-0x128418da3498e9653f4a11583b0440594d3debc8d48b4e135b6499c3fa03cf0f4b2147726a8c511874ac168faaf092b9) (-0x1173166abdac859d78bb742f37ed25a45af8e97da180da11aadc485019f13ea8e1dcacdb14f38ba3fb9ae5c02183f7c8) 0x96d78fe87ea8ff4a892168f158f7b060a1fe8f48c552e974188e21363cc9f6792479a1602fefd05b5ab07d560930db9 (-0x11c736ea8920f88162a0b9e1b2ed0769e9c16ac575e6db84f4d0d331b64fee80aeda57c615143201e578bdf9bc210611);
  Dbl2 0x46efe79f2c82bedf1a51e42463cd4cfc73f07f33854b9a17bf05556b4c9d8524b7aac26ec1da94ca0a24c92373e1935 0x11d628617a6f9ae06aecf3ad79f66e428df50fd38ea2e577b88b877bac8279917392110c11ff62ac9435bf47b813f739 0x19cf76c25e9cd0a2be6345c7591d0d0c83083aa9b140095ce2c84366717e14ab524175a90233cf01fd2f3bd4a06b493 0x19375712a1ac8cc736594b32441410f42d8abaf4c49ac907d1215da247c8e222bdf1a7c7d09fdedb6b6054b7352a8280 0xb7a77ba008bff479434a4e19aa2ca76d155ee6751173abf52678a0aa23a6890a92d1fcfe5f33ce5e44fd9443dd73c4b (-0x61502874c2f231d5b5d8465402e49bac958b3b5f4b8b7d1cbe9d763bc2d1f4b413686eb882f527508709f0423fa9824) 0x16cb96047bca96effbb64a8e729bdc59e92ca833ccb259414e40969ea490e553995d91fb04b6528c17371a90f5f8203 0x9099abdaaeb5097066be6fc9b4e466353001adddb3b795117abadfaf49bd428a01e3eb004672857ee4db9803983770c;
  Add2 0x5466a5519cd558bc131ea5507366cf0f7181dd5f76b3b77a0409a67466076ca75aa65ee7b46624a6bb5a19e44190489 0x4731ab5452bc7f63e7b465e6ae185bdf4947010865b590f8cdbfddb00ffd7fea517abd23cb677a36dd0ae8aac809323 (-0x319dd71f9ef0eac3ec226ad2abbd04dc99518d78767ae46b4ba5afb1bb1cac3723f4a6b0aaf773354847b55b74c6e52) (-0x42950c48d724916ab9231cfcec85df75d11a2462b8dd92557c626faee5515cecea2dd516ab95b1d65bf392ac64ec43) (-0x4f05f078d15726eb7fc597a149a885d6d0c38f26c065d7fe6541269e403e3597ded775d7b6182c66225ad758b0172e) (-0x1ce24fae29c25c9aab7d1e9825b5ee7874f4ddd8ea5debe7b6c7e3204e464511e8390fdefaee420585fdcbb7f77b337) (-0x5e5d3058ebf4b8c44692373be7032fbb094a8aca0c01d81765918ef8a2269e1280d59914da73623e11a04aa9392bb61) 0x278198461f757491b650fc22e7b8edb69eb503710ac0dc8ad7b83803d745d4584d093a7ba216fb301c49fd9766bcafd;
  Dbl2 0x10affad2973533934f40e5aeeba4ad940591e5df4e386916900e26224317f8e5154d4ca0d82b0836cd5f808c38b500dd 0x915275fc7fcc8fe7c419b7275e4c40f6a983def7eff57ef4c221eb267855ebd727d21122c161c65766fd237ca6b9e27 0x3908e5a750bbd3b594ef3bab80b5b78686a173cf24e275f845e45d44837453c3635d87050c81253668f2e13f2561aa9e (-0x7444cb33e75421e8b300ba2aaa3be294483172e3c9a60db7d9b0852eb771d4933eb030e7fd27b21f3311f0a420fe02e) (-0x7894c41bd48056dc8897ddafb11d93562f69c07bb864a21f0628117747a684d028b6f423e3e1b88c91935004bf71853) (-0xba832e2c191e61fa0223bc7c1de04f5400fbf4213fb46e39677067922b9a770858caab673dbd4f003f91d8a4796cc63) 0xb22393144dcfe81ff781f90b6e55496fbd3e0af87acfb74cb01a08886f901671ad4402ef6ad2fcdf5d5ed14320df93b 0xcb189f06bb73881e12cbd3be51764ad8a5b031cb466ca92937b99a037fbdf510b6116d64aa412d55e3b447ab2df553;
  Dbl2 0x5717cd9e9936b3993c60875dd52bf56dec4b6dd22b52758eb7967aa1355dfea7f900c88b4fd2d0ef4049a57fe2a75f1 0x15435fe1cdbdc91e8b9a7128a57494f6b7c33a1fb19ad12ca4ecc4001b29fc7546bc8ce9c2f6a955392eff0d78eebe91 (-0x273c038f73bfa63f2a3beabd599571c234e9ac4dc32eddb213731f365c4419f26589ab653d4864544e66e507539e649a) (-0x4228e60f6dfad375dd8e99ca4fefcfb3dbf0698f498119633169564da3624281a1f2786109309bc710e0be9c6c9239d0) 0x103f43d9550dfc40a04a0a6700153af703c2c453c78cd1e5542f649e061ff11aa7c46a725acf79a7d43daac4fc176bd8 (-0x8e6dcf22dbf0d4a704957adf2ce6adc0b20a5dc5af0516d457dcd3b4abb280710191da52208e50e901368f47cf38979) (-0x563d3ce4b2bde8c2b43b4231ad8ca07a3b318127f5363aa73bb5e8db62288d7e2c0496d528aee5eb1fe803fba28e9dd) (-0xbf48666effadaa6375d9bb68d3d2b666d50993cecff540962e38279f291b23897fd5f16cef427db3e1e1fb478de7df3);
  Dbl2 0xaf8c6ed3774aec9295c80a842e9c03168c96b30605d122f2444463de141d62a32c75c9cc9ebee064783d35103283acf 0x126333613a5eb0ac736d17e2d6d91836670473085f5d6857b7a88533ec7c913fa6c08bc85d49ce5c1e7b6ce82ff87cda 0x316ea36137c9ad291b293a035f59ab00ba05310a90e8080f1306ea5f397ad94ac63aad75708081915e479686941fa57b (-0x4d4418c3a2823a8b2c5d305b0ed402fea95dc17505c2f4b4685620f881cb3e7529cac05c6d3843e3b010e39b6599484) 0x85f5ca2dc3d2ea5b24b3775b2b381cd41e9e8f702d0e463915117ba4aac0a97908d7d9147c5cac7061279ee938f5c31 (-0xf842940604d83eab605bcb3c6d88645ce1e11334b653a0f89322b447c6e6ae788b3f95936666b74098ebd1fb5202697) 0xe23ef05ff201af9cc7154c39574c1621007cf6c39e67f953cce2fbfb261a8e884d61b27f7e370b535ef455fd68c6cb1 (-0x1e22743c856aebcad494dc7b6225d48660756e3e84a2a715c6e65f7ff3ac5454018fd866d1ecad7fdc1cacc960cf113);
  Dbl2 0xa1a06b5b58170d2486db1fb7e1433205acd4114294583f16d6def4287e8561b456ed1c5cd72d0c5b64a1e6c90c09388 0x2c18f1b2e4df00e6eb04c928cae7611a6af521e1013275cad09ffe2e8ddd4c36643644a98161c6c2f88a3e9925590a9 (-0x12c63aea15785ea0b359e7be86fd8e5ee0f9a34e10813e4329df9b57663de0ef2d57cc0334db3d4d3f7ae4ab849a4a8d) 0x44a0fe50fe0b1e130a376c988b1a7b860425f747b273512bff0efaa6d747bba8cb083995fb53ac9221e03181b46123c (-0x3a1cbd08ecf2fe1d56d4cd4da3f6f6ffe2b86287d212d529567355d0ccf104bf4c34545bfbf0cb7d7246774545664f2) (-0x2242ad529c533c0f5028139c06ca472d88dcb6cd72cb5992b6c81c7702fc0800c79ae548cc55c3c7ddf1838727a4633) (-0x1a22cadf63b8433b6b896b2de309ff098d5a6c0a0b520265710b6d3d2671932e5d93a67e1ab915866616680542499ce) 0x51360a143167d57f690c8b34961afb72c87aa59d802c81ad52b8f8adce0d8f33c01cd50afbc1701387fed1b19380d07;
  Add2 0x106da79321d613dfe465841ca616cd1feb61a490f0c5e1ec101c7d430fd3ccfb2c8ff4ce0d3f7f6ac4531cf2dbde3c1a 0x951f7abafad1d219f540e4a76a5e094337e614e77840971f899231bc638ea2690d805767f39b568e9d00ce7c56bb330 0xd22940d48bd03b3123cfc0b2234f7f22a5e02d7a2bb292fe5210388c36adb3a18ab66a478eff6c9100dd2a205dabb5 (-0x678cb01bb91f8099135c09a0d8c0c860b5ed0ad2cfa1d79fa15dabfa6c8d06db91da9a1729f0373bc9c71794c51869e) (-0x709cc12abc143d41525179d712508bb9718209f636c9bfbe90c77130ed51cf5f79605bf02797931eff43f6857c3dae7) (-0xbc6b4c856effb14fc4a3afa6f230d44f8bdc08717f89e366c6d5e995438faf95ae761036ec475b8401b973e8fbba8e3) (-0x22f55173001e1b7d0d826401f2b23ee09ea8ce03d718518eb3a75341020885b78cd54d81ca624e863b13426c582fa1) 0x1c066418f6d5bb09cdb0a91f65c1617180d4186fdfe19b2a0b1c39949860b96823006fc35f27666d8c35e0afee062fe;
  Dbl2 0xf50cae254330ea5187da51546f1d01572d308df9eb1a27fc87c6c1df49cba4785f12fe6117a89c70cba3e1a7ec691f4 0xfcbb6149ebc24112fea4a504676cafdc1cf4a5313a641d5c4da1b322d0849e73dccbc57490dc5705a21fecbdbdf53e4 0x1a8551796c787d5bc326570b13e19c46bf5b1fbadf2aae12569bfeb3c530334d0da9cfca468d482417a2c43fe36a8c78 (-0x8e9541e85d628c1a19ab835683946febebdcb0643ae8109abdddd07facd52c5a8f796d52bb6afffdc33184a3b706e56) 0x930f48b993a8872c7b220e9c37386c0bcb0a559bb03dc7b26d04f71ee89380e38701fcb4148904c15a79580fcff736 (-0x129b38f6e3630f947719911793c5ac99589a57a4ffc7c23530a7bf040b1cd6eabe758a7134fb201a899fdb3701d2ad5f) 0x111ba0c3098285b97ae2746379359f0fb7e52d35f3a5f379f228103350d3cce0d1384e505e7c47b9a163a7418e857dad (-0x50e1437e25783a3b3f2ea858cdb13f9e6ed8f260fac8c9b54a23c56df1a4dab8fb678284bebaebd695ea7d30a45ec02);
  Add2 0xde9fc1d47217a4a2bc4780b57a8448b159c4ccaf6d6ae5550bf9eb8a12a584ceb0e4be9dd70456ffca25e6fe24d4212 0x3eb24c7d2314952510f428e5b94c7f32fa3739e106cc11a79aff9db19020ae118783a7a73e94a7f65721c340072b4b2 (-0x8d822b894f7fadad617870c773b778a99b073c6f7a24c6e7d4109ad445c300700fcb24bf30489e9692d6ec2d12d674f) 0x23b6775fce28ba7f16ee66013a6998500ca10c69892511aa2d98e103df86739412e46df91cf9a35c47606c31ae091a0 (-0x6dabde373bf28d0f29f82272ea94fba3c6033ebdeef362770afec166bbd453a4f6b7a855ca542c70e44447137f9cb81) (-0x43180048261279c90c051a3509d66ac06cbe6d31575e953446c8391e998c26c168886e79b36b8b5b1814f0624dfeb73) (-0xb0194163490d85f70ff3eb7713a2b1351d3d7f2cd612ba4c58e96679b534848117e2ac749036e89241608230792f282) 0x2b6689e49d1d364327ebc71a72e71b8ff3bb5e9bcb764f9a7d5ccb3151fa2bbb60b0273cdda4741663a6dd626d64972;
  Dbl2 0x1785bc69a459638578ef0e2e196253df7a4896aae3c47dada4744279837c9bf93d2fb4567c75617530891e920f5633c4 0xa68c3165a02ab544039f724b382c32290f5a183e31df01b923d4dee9c31f36eccb08a4dfcf674291dc929bccb6a7def 0x287085cd326eda621ef5467ed1d59a07878cb39699a44d5559d283c3b31e95d423e3a5a1e0592bde86baa5c18e36fab7 0x21fe14e4b19a863997333ac8bde0698af6c5b27698cd45eb544245f19302ac31ce6e5d24a645d4975e98266588921a9c (-0x111c5b8f69652514e15d90e12020856e369468e88762e0e5377edfb0c0f5570c53e740cec8f1ca26d9163109c06927ad) (-0x12d4e3443b9e125d350710ef615839bb16bdc41da1e80502a5c0dcdcff92438a0ff6570fd7d70bd0229e3be26fdb1141) 0xeeda3452251153cdba3f57eb7a1a3b84d165e898ac9fb1d0efb36e4c749a3c5b30b328796819ffdc127ebda46487a8c 0x82d6fe493af18a39686ca5ad484d43bb435868a5a7b237dee1c2f29ee41e305b5c56fb88a87a7e2734cd0ab08e0174c;
  Add2 0x47d031b8a7e1de8dd631d16ef2981e879f3589218019af4ee7d7a965ff7f09f855d65edf20533662e7dca79083e668a 0x726b5f9dbab2921d05ad5ba3b5384976230bbc2f1fedfa9ee9c988994129c294509241b81d9989983ea31bf5ddf3b77 (-0x16f7eb1eb6ccbc02cd6dde9f50e1c252339c0f86d24dec59f232bce2dfd71e7eabf42d770a426cf24e1ffcdb4e90275) (-0x45395edfb0bc2fabfd663521e848f8fa84c3aba43d65120da5d08b314cfa10c360c7b569aac57d1c59d7e720ebdfabb) 0x1312156ca66bd12d86b688cdde54d962f4af08597eb2378da908beb03147bd6601047f9f7de1b71a218d1a75e898701 (-0x277f66045cf8bfdfc0fa1ff76c960bc545f5d36a7d29d909c26a48b2aaf83b50232feb1602bd8b7b98c72b781db0206) (-0x2dbd0e06c2b0dc9654d9a322f6c160fe8da4be25b3b4b9c2cbb2aa81fbe2bc67a83965674c960c27790f3a326a75a14) 0x1799b47cdcfa1bb1d508e6577db3c7ce44f76f78487bf0097f11d68b0c772c9caa6f256482617b82fea01b5a1102c48;
  Dbl2 0xce64e708234b39b00136a4a8329c59562a0a98f1f975dd299a4953149220ca6aaeccee382dcfff3638508a7f122fc2a 0x95868e036788a554b243080d86b1aa9c0516d2850ad2f168a0121537fe0a9776e3047624f4d278b02744f521d8750f9 0x7a57b375973a694eade674e4fa33455c5c5b62d7cc34e1bd9c31883698f6fcaddf116cc73e7737fc016e06f9207cc5b (-0x660c50389ddddae61ebb1c1d9ac63a7e9f8ecd1d550aba74d8bdeec16e306ff60d9477389204072bcd59d864ae008b1e) (-0x30a5c699157d0468bc8e5ac78ab166612ee7a2d71e2fee5ea37c042e83b7011e55e77f263cc34501a592e31e6db7542) (-0x9458ec3eadf341ab43e75c6de631efd5d168ded1f89ae06f73129b1fff11a342ae865665b6036c46766526cc576e6c4) 0x18a21ed6d3527d29db5ad28fdcbc9fc174bed68243a402a8d1522b8c43c7e1f76fae8eaf7d1f8644b47fd9ceb9351e5 (-0xb940db204cb03ec0594a00dd6cd6eb74453cd57d7ced215be3552821d8bf7efeb4571e700c365303a461cdd764d71b9);
  Dbl2 0xc8ea78759b9e3837045f5e456b78c5d61cd31c0aa93103fe14a248ba32392aa35f8844d214e504d1aa778adfd4d468a 0x9b8530361e0efc2cb47350370a38af6bde87df85aa02bcee3a9520a82103163b68e7896e86f20af9586b1941d31085b (-0xfc68704e63dd580c4e78cf922445d401bc06941a8d4426c79c16f855eed9951afa6eea8afea5fa9fea551b75d346637) (-0x82f3e98432dade5432cae76c96b8d747ed506b44c7a30a5e6a6b2c50d998c7a083ac2ed608395ed25fa077d31c0b884) (-0x26e3b851b2790cb8a51d4a5432214dff8239c7cab6b2c5ddaab68a2eb4e84aa1b57adb7b7686e974982fb57a985cc31) (-0x96330af564193040e7c6b30265ab1becd4bb0c1ffbafc069f54a56e1841082ddba04958134a787be4f4400c447dea84) (-0x53a7b9dce870c4f12439623b6aa721f9c2e88b071756149ea848068889a57a471e2808c92593e5a742bcb4f892abc0f) 0x8d9e51e29fda279af7ec5cd9e5f522f2b820a54523f9729e2dce52dc2f2645b972f52a3c3702e68eff98fc2c2e4b1a0;
  Add2 0x176ca4772214e05c2196e33b836ad061603eeea6fcffb5915910cb6bd631f1464c91030b8fa3be217bf7438e7bd18267 0x718a39c2848d0b22af1e1a734f7a955029ad4692d8216c22eef4699ffadaeef86bf758cdbc3b5da6ceaf1e3e8f3d476 (-0x1b00a31435239580b3f1a088976fe33e9c0d00a08ce217938a2edf3b6b47bdfebf023665fe57d50beb373de84c15505) (-0xd6d477ae1c3e0ff793ae1cd76d5c01135daee2898b1b033103be7803a5625f2fe6e13b8f8107f393ff51ca779f1d8ac) (-0x1329fe5ef9263cd3427bae12eeba96d475c3a6bcf4edddab5329d6f6e37c91b71de50f597703cc0f24008512e177d05f) (-0xcc8d4f0616b0cdea4b6f90b696e7ef6a7b092743d3cc4b5cde50081be80698596a9a8066d9ca293702879922ef160ae) (-0x1efc4486e9fb7fa4a26c8a312e3e823d5475bf9325cd9dcadd556290b98c80bd20366e779de8a705cb2fecd1c85b318) (-0x15f2e297878a0bf84c45044a41769a60697e0c8d22a2da179d738d7aaea976bdc989ab6f664bff80cd36ea2d5cefd77)].
Definition tM : Z * Z * Z * Z :=
  (0xc8346355fc330675ed30a712028973c6429f45d9c276ac160f7137e803180d4d2a7c127d7725ac8908394e3b1101297, 0x1657db5668578fe75ad1cf09d56f31fd48a2b36c11fc0e344d0e3fcb7801e7ede5a5304dff0dd02fd23f26dfdbe7d17d, 0x17dd0b2f49dbac550cbe9a0e657db91eccf178c3a971b85f74a800e66089db96c074d27c78177314b9bbbf9333ca02c2, 0xed21d7d93200cfd3b5e4936b69726c1c6a50048560242f9cf2f337bfc622f0cb22449550885fa27f9e437aa9a02088a).
(** a point of order 2713: psi multiplies it by 2017 *)
Definition tA2713 : Z * Z * Z * Z :=
  (0xf7fb16d019af57cabba8406ae3d6cf3b994b2fa444fc384018423b8cc1081361b8e991222cee43c373f96b6d349eba9, 0x84eacc3dc76b23571d70d25af4cf90ba3d8d302f7f27b667c9ddf5678ca1bd0ca3c7ec1f8c65fe8ddfbc380a7b1e5f2, 0xd39395e5453b30de67e804b1c988b2c521764c3cebf395e621b0cc268e90b77fe519ce00c3901e43fa1bb57a140a39b, 0x181416c7eeb77f2a59357b55d413f6ae6a7a7a3687f85b0d79a102fbdeaf75e66001d641bfcf60259b26015a9cd4d74f).
Definition chain_A2713 : list step2 := [
  Dbl2 0xe7dcbd6cec3553cfd660a0d617bd92ed39b150f631728e04c664427531701bdcd669400c30576c217b0dcb1db8d1090 0x4d16b2dea70339a2d01481566d07b22547ee6c4359b4526b0051533765f5a37e8452ab6e77be39fcc7d29419ce2006f (-0xdef633642b8d785c55b159000407b755895173957c9f0c3b86eaec72cfcce83ff0095a0d7448193aefd77b517449b9b) 0x2076d80f9fe34bf142c492dc23aa7cbaf955449afcac44c83e6eedc0552c951a4f0b6832a456c2737990e7113feda3a (-0x72ed6457c0989e430cf83fc6df92fca2063a4275a1d8c4fffe58ccf0b539b952e44f9dc836a0a9adc1614e8dc427d79) (-0x55eb2cec41c9b2febf4891742880fb00943cdd4eeb3b085575e1b9e08913a971db2511d9f0f9e958e32a2c482dc2107) (-0x56ee9e1350cef8bc7de63dc00efca509e18b50ee80ceb20a25471206f8643830131f1cdd1fdc2fb5fbf07c1d9c05de7) 0x2351b1eea265748dbd9393463f01ad9646f4d7c02607869dbcb2171f7a4e2b3f314bd2e920b1545ea5fb048228087dd;
  Dbl2 0x6b3ac5a87817ec37e6beb67df233e724b3f64b42dbcbbe51ecd03d94a8fa4e228244cf77ecf844fea1ff4c965c10f3f 0x51e02c445e3a30834eb0d519b1145c46481d16b47ffcfc7e7bc727888829aecf57476818b2d576af4b6e85ebc2fb889 0x102801f2890c609b4f2b1a8c1ae5e533fb17de312405fea2e7fac180f107d761dce69a276bbaa6310f0ac39ec7da4f8d (-0x1052a1c2af834ccbd48c6bf639673c58dfdcd2da6498a1f29e8f6f3d720c27736a1c107ea8cdeda7c59a1a5b77d9ee40) (-0xb86059e05974dd239d6b444c8cd1ede402d1b042cb2d0608916ff79150f2c0bf0e70c1cc91b5344aecea9bed795f73) (-0x2a33cb666d139e71f9d59a629762b8c359adcd1a32d80041fd78182ef0030bdc992ff82cb405cdc110429207d7e14bc) 0x9dc1699d0f5054ebab4d9a1b5601f5f8043053b3b62bc8bc5c55336e143136e807a7e19d095ea0b6c56e3cd147f5fe (-0x405cb2cb0d19a7a80fcbf6fda40070750bf0e2927bab001fdb65f1229922bc97a2f52542ae987d875aada84816dc4c6);
  Add2 0x694b59915626c6df5595288698dab9cdb710e056ecad747a4be9d53d53d42a76493ac00151b3b96dc7b48f82050623c 0xd5169d2fc302c79be3df3281008956fc6f8fa29e229b7a070c7221de981228373ef9d1cf321e56ffc93d274be092d8d 0x1203dcc1378b6363d8bc0ef5f48bf20eb14f54f53778797e3cc90b92f854780b2615f3ab3e4fa6ff1456d64110f3acc 0x81decac15e03fec6db293728732b14807b45ff9c4a9c7209ded7de534fa599ac4706756b0d52327f169cd2020ab4db0 0x527c72532ce1f791bb7f33dcf78c1a3b290883900ab36847653193f2d7245988920ebef09b1aabcf206dd22038e8701 (-0x6bda5303096c29f106535fc1b10aca251560093f1867eb2f51f2cb1a33a757fda69f7cd3b150377a5d70397227fb44b) (-0x6a71231d7fe53a5d9c79a6800d2490d6448165b951a308d79e62d43ac3389cb429a51617121c6c370af40ec9f85fe40) 0x2cb59fcd593e166ffda6ef8f02f606ccd81a216a5a9c00d3311bbe4be694425a0bc027fe406660ae2c9b09cd82ae135;
  Dbl2 0x14717ccc8cbdb3fbe4fa956069d95c24033be4f911f6c423e674ccd0e61fa3a09314e8ff92cd5d11a42342d62c797c0 0x17b19d92b557a11cac2deef936f24e022aa445f3e620b1b006576c441f98cfd62a4bd1f1c267ebc590dd27f2537de24e 0xd0de047fff45d6e464b4a8e7a185efb443699ebe23c21ce0095a8ab6900a2637132382434814c7f4641ebacffa22549 0x159f947f00804e45942ea0fd8b720db05b76ac8ed07701024bd8695c3b59d0136ef2b1d255b755e8dd30b7830ecc7d84 0x1586a34a58f723279c600791fbff235b11ddb58bdbe556d8d576e5a03f112c1cccd299a7003e5e4e6bbd763803141624 (-0x2541068539c7db6cb54dca77f5b3010555b05aae555cf9bb3c6d7317dff0d1116d24d870d7147bf01bcfce79c91693b) (-0x182295bfefdea3275d3841aba6880d2dfd2e2ff5e8d9141d8810627b85d2ec2203cab2922fa87ab1d1612799c65968a) 0x30d5f1f06fa996589647f695fef2b543a1a5b6cec612d4128260959abcefd53ce87a561fc4d7f095a0bd052641b65c8;
  Dbl2 0x119302ba969d8577a7257beae1a6f3e3d7ddd731b1916ad54a4b4fce17e3f1daac4595ab29492a1ea0e2b366f2e2cd6b 0x7e961c1285e2ebe85536a4144c4fbd2aec0f10cea358b2805c85cb20e046814e574446655890e39411fac3446e5a63d 0x1e8ab6822505e304bb6cdeb26f69147f2fea4e2c24a0d0dade47e5763be87abfde77116c5948c05e1629440c972d5e87 0xecb83e6823aa70b2886dc3a8372dba318922e1fb9da0669f83f67992d76dc7a0b1689ee7bf0892cb85718dde30389e6 (-0x97854204857c54ae0b67c0f4024492422322e48f9a4e99201c2fd732f0e42106c2117ddb149d71e59f0c7e1fa3155ae) (-0xab19aeb7836cf9027778ca5571eae7d04c3b215d77e6687e86a3769d0dd3811f904cec9c056ce3236e181d135be1e59) 0x389e5a36c047d15aeea48625d7a72d09d42762a774cda684ed4bc8675f3a1bf141d2b9ee75d386737889d75333cfb90 (-0xc41224ad5777a84b0d09762264b8042a89fd0b95b20e028221bf5609d8d232ce1a63db5890883a222b26122b8e872b0);
  Add2 0x8463b33be624d7fd5319a3c30ec7f4fd488199e408c86fe1f56ced172ed04f2bcb21db88f3208ec2fa208bfaecc0a8d 0x1877d0a3a7223a02ffb2f04659f1f3d7757e4b35ac56340e13191a56acecc952d2b5e128c34c9d3d5630aa99b9fb453e (-0x2635a7edea1c3c76a968361a6a631f8b749d5a9c59904926ca81b04f90476825ecd9b4ba2f5b89612f958343b477fd2) 0xf08a219e267b2b5676e954fa10f3c4bf988cfb889cba23f442085e463eac94ebc05ee3468f51cf2e071702cec978f8b 0x1463c8fbf16473c2a193337d52888eb66964e8117b0e0c2ce02fbd4839fd3aef72aae590a7917dd7ca52a67cd801fe7d (-0xf92336551bee2f008a42f1426f041106d1abd0df0e9ed6c4ae2e74b71ce807c2ffe6467b6e0535c36165b174f9bda68) (-0x387e9e76d6799bd826dd2dd1d1ed1585a18c1e6eb84c4d5258ef87193acc1aee09c79ec0b780eb6f8e8b8d02fc2758c) 0x17e1fe7105144bb0b070e541e18ab39f3e10d9c016c53d91df7f4d3a89da4ebb8253429384fc769ba37fce336be52b39;
  Dbl2 0xdc274a9ef2223da760a10236b9e363bdf47e764330810f9339c0ba49cb0958f7471caf29f5f1b826d6523b613f0e833 0x2a10dac7dbb18f442ea1ea5ba8c1b3fd07e083c746064c6a0fdc79e4bd9e56da196becd0e36996943c9188cc61e3f33 (-0x2241bc0b598d09baf23bdc7e3de028eb9ec7d40a23b04d380a2af12cef10a1f4a43a8dfabf907f1416c7ec4bd5a55dee) (-0x240114045abc224bacb0ce9751a37f1cdea1e16d1d49a7d634bc0c44610c9906edf3ef83105f854372add0c3b51a6030) (-0x703c9ff4dcf5f38506c110e0b1a479df9f1ede299d9f597e31a3e97c6700a6bc977318f8b8f823b13c814e2c43f3d96) (-0x2c843fbd84b75fe6689c2b5a0254da19794d3824283e6dd0e72ecbec35f18882d109f549287ee2fcf50ef894a980e64) (-0x21911d91ae682bf4cf3c5ee0ebf1a5792009fee986a3b43290fa7e7c805be3d0d995b7872c937ba704f14ad507feabd) (-0x21089c1f306e1f5e3a6168b75c8a0fd9162aaef922396c093958b35491db56ea514681a186453d58182c030bfac915c);
  Dbl2 0xa9e888418840a0be325f6d7cb55e33e7c6e48a2750a9c96846d26ae99c4e55c12f75cf69171b940e1e3959fec64a8d 0x196c2b5fc1a8ef5e45e14982e60a8a2e38c33135b86b949257a7ade2e384fbe786c52e060bb16efece2428d973d7a2bb (-0x3582f0bbe39946a01f0649e40fd4465048599a74f2b6e7314a9f74bedc6cf0cca6864fd934b0f58692fc724cf942111c) (-0x1ba756c35c43cf40a7f7d2e271e44f254a3805eaa882a35e1f674d16797aee34f3422217a909932ed00985fb2f5ad19c) 0x18d643479a583dd384a05b6ba54680e44e462c53abb1eb3097e39035ad62b5b89813b5a598ce6ed106e629ae527e0c76 (-0x14c37442853c4e920f0f139f1789f5a784a7efb9371c8ded787c91a7fa64d93406a63e76f957398b4ad1ac5581b8853) (-0x154839ff5cd854cbe18240465032ce6c99dde8412232504de3492681184f962cfc6443b725c00086cf73189a94da373) (-0x6b161d8a135aaf7b2bb9e06f9cbfa5af79de255ef2156a98b672b8d68a5c8a4c8ec252a627837d75b2e3624826a887d);
  Dbl2 0x9f28901320ae174e787a9924e3d4550fda6401dc31bfc7a5128b85c546afb5623e933e35c0d6ac60e572b44d9d2d639 0x10a2bd8e02d905be8f192b1f42972cedf6afda0d158338c817451138c04d12b6a6b831abab75c46430875fe5e7746984 0x39c15562c738eb5663057ce0d22c46f19c0df30b319d2da4db43e5538dd5bc4089b022fdf85f6045221943af4a1f9e5 (-0x40fcb83b44f927a0638532d62e646349ade75c3a929b348c4af4b612ba1b0bf9fb8273bc987e9e380cff595caa1086c) 0x6d652ec499544bdd94e6d2c501697686ff5f4a77e9835585f9b565100eb0070e3730479e2e26f5ccd45941ce09c06a8 (-0xcba332c38524710a723d546c8d0c5e682febd3a4bb87fb6dacd1df158d2652c2c837b24ddcaaf82ebd8b38dadc99def) 0xc88a801523abf93727aa0263090e560dc9b36e180850656380e2dce1e89f9e338c2f504d48c95a63b3b48fb9a02781 (-0x63b15e9a28e81ced47a08289ddb21da236fe72ff0660d5b4c74ea8e982d1101da2f12570aa470552d94179090ec89b);
  Add2 0x54ef0f8889ee2d11e08bacb1bb66c37c2fafd12f5f74d632256df0b1f83f37eaa601039f8efe6498f36a44f5f3eae0a 0x14ef2be3e689b7adf2f5225d791aa146d81b020550cd03eb1b0e617749430351473c2809868583682e409c93ed853845 0x168328f69ec672ce77d9aa2639a7cb0042abf044a750406dce2608c058db82b76783ce5231d96a7b4bb510220fb2cf4 0x26f9963e02405128edcfceef430e4f35870d5d2ddffc2479f1b8a8963e42a4bc553dc1a60376a75a796cefab23de276 0xfc4e924d1d6f4536371a9b235fb78c784a1321655b2229acc4d547950e8653d647472206b8f46a3bcef36dc1a0accf6 (-0x88bfd4b3077d7bb091c1c6301bcfc3aa08b32e85be288c0d0fc60e1635fbfa9d3bbcbbe013e9995c30a37df7abb1a3b) (-0x8610132b25cbd8a6229b54dbe0cbd1238fc68e015096b5da9a27c30926dd7e5bcd6924881a26348725868fa20b3c080) 0x605cc557c39b138f215acca76531c76ea7f0cdc71e680028f7c9deae1460f388fa8766cb0fc421dedb734a837c4be8e;
  Dbl2 0x55405612399a241d87390b3ae21ff726ca67f87419009889cb8d2da24253470b68b7f337166058d00f4125331a7a3fe 0x112cab21ccbd1441cfb33c37a0f9ae866e3d3fb1ce2873ff00f7aa9df2a19dae584f4537bca297077106b96d06c20fbf (-0x2a553760832429d2779d935545675bbfd811ef982f322b4675cdd7addcb46dc64ea613fec5d8df066cd28a265448d33) (-0x3bd550ae88e7574c86ac56fc75f7aa0773b357fe4c6390f4374235249a8b7689be0da2bfa6b75f76f679f21353ccbfa6) 0xa404c7af957606587c2ef1b4f0a1d80fbeea275661c920ca4b61cb004e9f410cd20f2616fd367a7984f7d95839505bb (-0x709bcf20514a316b5636ea8a523ebdd5f6c19a20171597b63de968a53d5e7218374db879b8871b9b947e651c738f0ce) 0x96b32f9addb2a3f4e450a1d75c2f4f2bcdd9b498e4ffad7470ad2c1493bb8593ff9adedf49d45735654a34a9bbda558 (-0x93cc7670a2f8466a70e06e5b4d011e669c58fd4953c2de883694659f99b9365438d846ad3fd724017aa7cc5334f9570);
  Add2 0x1ce73eddaf765a23e7dd279dcd571c22ff2f5a55eee2e16e61b0937b21c8b31aad85b4e94eea7a41410a3dbc4abbb0a 0x14e03e3e8ac5eef7947a6d308303bf23e4c89a4d55befd6f62120545deba93988ec78a04069e9803cdc4e9e75289974d (-0x31560eda876bbc8d174f73d4ec55ddd5cf4070b89e009d274f5f5339ee2577845d9a36af49f45efbf8d2bd0d790daa4) 0x64743481be20873e64835c5aebe2a989d91bfaa328e10b1a72073ee8327bd4f416867206085bc4ce623b4225030909c 0x10a230c45b398e8f84210bd6e1517fba9816855d219b65aaa5d266d1128de73ab1b8a10db5dbc60fdbba0b5827cf2f8f (-0x2e681c96a83d516b592bf371af58f2749c8e64f81e81427e82ff378a473c22595c59e62b7db3ab43651b260c026f8b4) (-0x86e77eceec8da07b75d6214bf777229f82d2ab6a31cba54f10ecbeb449a82d50b0d0dd5ad032d17061be3129c977df8) 0x8a44eebfdeee1a8edfebcc682144d7a948b0852f8375749ef819908c7955fe97f3c412aa3a38f5768b0e8786c8ed0ec;
  Dbl2 0x3254baa3903c420791de8b4e1c8508173cec3c82a5ae2cd6140f00994b74e0bbabbe6826c5d45452057066535ee00c7 0x101907cc6da39ee26c1ace5efa8d60ada7b00a06311495b6fe8558c7c0c80362e7c756ef2241ff7b70c3ca7961ff5881 (-0xcb63c7af0aba4c167ad66002950af1faf16bddbf2926cf5653cf995d45c56f6d18f92412486df7831b7db240eb73049) (-0x24ad8f9f344576e7bb332c2a0d182891b0eda88c37e88d6edcea08360b3d3497763d0a2886825b416959f7b93542f474) 0x995b0d5f04f10a912a83d818a9b2d2cd2fb587b23bdce35cdedfbe108609dc8bdbf4442c2baa102752a42ad11a73105 (-0x3e5078cf9cfd2ed96658764e544ef03a3791a2b629e672acdcfdb82c64744efeee010bf5e955d86e03d94b11c02883b) 0x32c2ea8141f9c8ef8dc1cf7c6fcabb2e3ff3c7a94fb6d8e3435c6ef0b3d0286fb8ce2c500e2bb964ce74e01a71e14dc (-0x1f4614d2a4cb7c9c015299cb577892f8f5d803c8f3ac32571d7370f71eda875251029f73f7ba3d40ae9d047cbb0fd39);
  Dbl2 0xb442fd8e50c662a4cdf5681c0db882aebd2014c90d0f00489bba6073fb31cedb484086b9a3613e161953a48a7f79d60 0xda0ddd2bd5fbd93dac0ced7c8ef449d51c412fabe7011f1d9d42ffaf06d19a181b2beb5e86535580bf3fd555a5abfbf (-0xfb21dd200936a8c060cec6b206c0b898ea1930440471f9858e9e61b92c60f6f01d1f247c5ddd0e33954d3f43dc9c8e2) 0x76fc114d4b7ee0378a3c399faccd8dc18d8962fae1b117493f0956700adf1e6512d80e0b5e4552b5c2ca3f14f1f56ea 0x242e1b0b814a5cbd93f8e0e88d9a7786ad3498fe75603f715774dcfd8fc2f29b1d1b06bb00862591df82b7514e333e9 (-0xbcf1d5cf89a3253e5428a8e8850b8c566b3c5e6f5b45efd4b1fcb37d6a2e461a5b663428fa736c6443184038f2244bd) (-0x6c47c39ddf348b4bd09df66c4f2302ef3cd124f2d3d4d8ac2ab0d4ce6992da474585ff2d1aa5565d2699b75215b2a3e) 0x2e5cca89d88f26602f6b6c1a595e6a50ca411ed3f5ade72236979dff0c85f63c08fb5b93b708ed2376c7369d230d07e;
  Dbl2 0x1609ba72daba9a49bdbb058fb00aab3867f71c8fbf656b97da5812cb4dcd22dc35ef7f548fe9e5b3cda1ff1e979aaa6f 0x98f920ef9b3999eed28c507341999656c917d809c29f9c0c39d32bb929d2b05765170a89615b92c05723a1dda58d385 0x2336572e67f093aa852195b814ebffa51a47cc43bc1fa05e5540992a3f161eaf7de85b50a2a9ef145816a14e5b7df995 (-0x348dbf3746f64ce42dec7bafc2b194080f32c8d2cee274b36d99e54b929112cc6d7ba676c10c6b73ddc0b7ff6b30bd5c) (-0xf295c9c0894207b2ca45add173a05c13be75547930a5d64561929661c8ef33852ed333dc6506818e98bb637f085c0cd) (-0x103487bd13c72a8fcea1119a2e83530d7d8a293f2141459e2d5fa636a2bc9365abb652d8bbc7ea5700cd2e80bd624ac2) 0x6ab0d783daf00ad86bfb458d737a19eebda86fcf8b20968d58af45b3c93d986b65bf15119811ee29028d17de8a4362a (-0x8e8c5d594d6d59b466bd8b8a6429259549f37ef697e9faab1616b535508dd6b2a0f4706e78fe05d7ffd0458732ffcee)].
Definition chain_E2713 : list step2 := [
  Dbl2 0xe7dcbd6cec3553cfd660a0d617bd92ed39b150f631728e04c664427531701bdcd669400c30576c217b0dcb1db8d1090 0x4d16b2dea70339a2d01481566d07b22547ee6c4359b4526b0051533765f5a37e8452ab6e77be39fcc7d29419ce2006f (-0xdef633642b8d785c55b159000407b755895173957c9f0c3b86eaec72cfcce83ff0095a0d7448193aefd77b517449b9b) 0x2076d80f9fe34bf142c492dc23aa7cbaf955449afcac44c83e6eedc0552c951a4f0b6832a456c2737990e7113feda3a (-0x72ed6457c0989e430cf83fc6df92fca2063a4275a1d8c4fffe58ccf0b539b952e44f9dc836a0a9adc1614e8dc427d79) (-0x55eb2cec41c9b2febf4891742880fb00943cdd4eeb3b085575e1b9e08913a971db2511d9f0f9e958e32a2c482dc2107) (-0x56ee9e1350cef8bc7de63dc00efca509e18b50ee80ceb20a25471206f8643830131f1cdd1fdc2fb5fbf07c1d9c05de7) 0x2351b1eea265748dbd9393463f01ad9646f4d7c02607869dbcb2171f7a4e2b3f314bd2e920b1545ea5fb048228087dd;
  Add2 0x133ff31273bed57e12f456961ad24606312edec91bf3c039dcab27224a88aefbabcee2b13f56817ad0084a00dbbc6a09 0x909daaf485ce856a761a231330b36cc10094f5742b3f7fa4611221f47cbec156f2823d9e49d75d0f8980e11116a106b 0x7e018af64e79d4742b279832f30548969012b0071b4f8283796162fab6fb7eaca2a32f8e477cab3272886d488a56792 (-0x2296f817cbb08b6e8418bc53cd1fc51d424ebca3a691c44950312cd902de007b816fc31ab70121130f6627a61ab9b2a) (-0xb1bb5501a39826e64c0f305bd2f12d46dcbfb27cbd926591086c33f5b9cb95df5e1378f206cbe88a751e52f1b76d513) (-0xd61b2c738d817575e286f5b6bde12ad39a72232ff9cc6f09e14a40abdde2f0d0da7e2ae3d4c0a381d6eda183fa18cf3) 0x7d7a415b7811f8bffba9e774f3ba68835749a83568bbc774a5740e1ae7e2a1f6f6574473b889f6e8f18392b404ab160 (-0x8585e2d833f6e0989748bd1695ebbc5c832b87905f0ce605352c841e57d58a3789aac4f375db98e19cb4c7091ab2d84);
  Dbl2 0x1162ebb49937dfe678f27f74eb955afcf3b9ed52931bea3e230010ded4f816ecf8f39d8439a43b9d0d1ff9420f94917d 0x17f0be5132b9f92dd9aea5f078eb8378c3f59e1042c7f636aba674c07242d50fdc6ad1cce3b993101724a210174988af (-0x1320c7aab6814841e3f60158a9348c0695a43825e1c275996358f13a52c90caafb6ea9071b826b97f3ca3a6000b01d14) 0x5911f7771168648c54a6f8c2c4dc9c616cf036c8975f4247d417829d1554b422bfd4b06c47a208cc6057c35754ae564 0xa6a755edc801ec282297cc3f906619f4252fd90e85f27fd02d760ad9207645454de81774526a5d6a791d0152299cd97 (-0x20035cd29651b78bd01ca6d051bb9a78644e6a573c04905dea16bfb02745010abf18f43e904b8a4deb7f49f0ea8b2357) 0x354f1cbda85b2407d2a00b6f8507e988c6b75e554de983483ad65346e8fe55a78257591f5a360fbe11b9e4a3917802 0x515284ae3d6696243f162e312611306643a0424d3bc0a2eb70e3a91b16747f08217cba1ab7cbeef6565572724079956;
  Add2 0x1011a8a56af7d39c9ab7aa7fbad930883d3c7831edbc043bb40b44c72c88ebf5f9971a5d2eb2a47d81350c68212b668a 0x12a597b0dc535e5b2e64526b14913e2f496d3eedc01256bcb47e04f200f8369f8235842da0f435fb23d161d5563862b0 (-0x3692ffa31d5ac791a7609cf3a6de9eedca866b26c98eaccd29e81437bcc3716f6ec47dc30b17c2d7eb92f0e9985f393) 0x2598376771bc463faf589226a4377ee8d2a0134fef3e62a10abbd1db141326945b8ef37e0e3cffcbd82868cd4676b2f 0x371048f8e76260dffcbf642a0accc29f61fc00947f538dcd9c5a94b137590fde7cbff495453143ede84ad0cbdd70c0d (-0x170b925b3e6689ae98128e6a2126554a14662ff5572f146afdf94d4bc4fec6c7f7071ae9accf474dded17c08cd5c1688) (-0x8426d1e128924d39e2fa012b25459e58f4d97a9b756a883a569884d87ea88e4c7abfcaa7bf1dc13b806059cd3d011f) (-0x41fdf47f104b96360e808b153623aa5b6afc97b491cce991499a3f5117b80a9b1db429ac1e1ff9d555208bad13434ce);
  Dbl2 0x4916ea845e3872b70e006fefc18cc40c378aa01a6233f49bc4559ce6a0f9b0a233dc16bcfb90311f38768de732b37f6 0x2fb76c2fae67de34f99e07fa9b8502ff7747661cb9117d492d1d0a6a45bc76ea48743dbb79f540be1ef98284af3f1bd (-0xe9c63cb5c4c8d3a753810db5180829e91018c17e267414923cddf5ea2ac67dc850849c8673e9aabe8758453d84eab64) (-0x2107b705cf20628b95e2ce8a5903ae1eb5167504f4a0a9d01f811601cc8c831e65f344c41b1e47597af37c66b7becc4) (-0x75dfb674cd61012d404c70ecf0c0684a2f8ac87ca75f12e9a79041f3c7e697e3e974f9a3c678e0cd0aadb6548bd622) (-0x10c3b5efd43fb91f7ab5edf3b63fb8ab1b6da401ae09c4149402bfde26e2011a4843f6f33f7e94029df3791e6463ba8) (-0x2c11815124e0e18cee7625b5350d7dcfdfbd95b4b61a7e6a4b8f2e19739b2697cd88fca662c26d1d1677797df18f563) 0x2b5e906721b1da5c5c9b3bcea72ce11a247b161c6315becbf139a164b1793e7140f7e6ee9e0c18c8923afb9e70b711c;
  Add2 0x15be72b25a289516dd59bfebd839068aa1c6ee5782ffc6d3bb1f31e32d407579fba34d04134db9435b59b29086dbc7c3 0xb95bfbfcfdeb02a7ce00e2ba79e5ee070a6f0334229ca2b83d42ace4cb19ceadf506984e104e0cdc1924854e0f0bcaa 0xaf20eb2d08567c27abaa26ed6a2baf3e8947af7987e794673149888e2a2a89794bed70c7315f9991a038260ca87e7c6 (-0x63528e799a1b7f5669fa8ec662e56646024d71d15d89f52779230cb510db7b62565491af5bb203d79e8e46430486acd) (-0xd053febd15c06058f1ac5c498c73464661eb8e256bf64e825eda7a60d88a8cce5ebb1d24a601b2d6529f794d3234a70) (-0x135fbef3fb1bbcd090dcc638d43865b0a5bbfcb554e1c1e467c70a61aae79a48e485c09f8181ac962a8eafe892232fd9) 0x3a7be46d85c6fe4474897f71447979393717fabebb9f714b556479d6c41a381ac13a8f363c960d949d0a8f19b5c92a5 (-0x161d70988357ee9fcd3f6c7e6be34315f5b168caae339a6843b27a981bda78307818248a27a709b46bc7abccce67bf1);
  Dbl2 0x3c70f6acad232d0daad54e7f7075cff5f2b64468d03b6b838acd2b04619ddb25488f043c8010422710992ee85567590 0xc0ccb640aab96ec465c65dbbd563067665f70771b743c02ce5dc7af92905c3c41c0651e2b50c8bd8756ce3cbca75d0a 0xc1fe9c8dae50939be5ce7998ebd9c6164d69e6fa9fb210b265aa61b02e241af83a10a60e6cc4c7507702362bb785458 (-0x283f55075cf2cdd8677f235021ea0d32cf7334f8c869db03f4fec00adb7fa439fe781a38932c8841acba6fe6c7a4d08a) 0x508f7dcdea0fadb10afa605f95e2ebfda3f754585fe7e052fbeb277d5fc6ed4db3540602d4cd7ffcd5818c66fb6feda (-0x3803ea8c99f3c64dda446e46dc4b338476de5f9cdbbe0775cb3918087a4f958dbb68f728e5742f825b6a4021e147e7e) 0x22f5c591302978eb1ec4950541a920a000f285394b7b7a6c066af77f3967b95dda5893c6fbc0fc289619e23e47beb8f (-0x53b57991da0e7518158330d8c765f24d4ed54d65c21ff88ef42c7ed82e18f6bf4a820b177ac8a9a898db8c6ff5e547a);
  Add2 0x14c2d59b116d1e2bd645a031edff8013641105d5659aeec1f2505cf93bc543c6bd84e8ec7816285f0134bd17a6c058cf 0x4025366bb7b2f737ea3e4d4a48627917585394d65b10d47f1331dd21bfad523e552012762756b1a6698708a6371c6df 0xabc0b7f41fea5695d5e052d4751bd5ed5ff70a4ac584d0522390abfec4285289b5c72ef426639e8e1f42e3420a4202f 0x19417c310eff9be7b329c0a2fb6733d806ee0365d0516b47e7ad3e1f015112b184d7f2abae5c08892b4fb9b67de1746 (-0xff4ff95829114a992706d4fb95afcfc80df2231571cddf8eda188e65df5bf2f85f97548a28773a8411a6834797e862c) (-0x666c8d5d483c465e210d271d263fc480b2b3424e18a5cbfdace7daa67a9a7ea13724d1986b6cd9210c2e54ad2f4f47a) 0xa687b9ee744d49a4e01ba4d5eb0b896c9834553da7e7fac5aa3181b01f640c356d359b5951d1b8ccf9a025de620b4c (-0x383950c83e2cd60b5e748c3595ea3a73c53d774d51f25b89b95495d7e610bfb5515058c78d124b81bc620c43f165e5a);
  Dbl2 0x1cd9d914c921a21f8c989aa1c8965a9cd388cc7087a38feb5b2bf1c741dcf1738927e629b3fdc51e2f646c61b6c226a 0x194560eb90e4587de3af5fc5bb489ac942cc3834e9645ec7d80fbeb4f34d62792a1af0c79818c279e085d27019b6d4dc (-0x1f850a9650cf35efd5445d8594148cbe11c0098028a6125d6bdfdbc93a8a998d091446e7a1661fbd89cf09d5b2c2437d) 0x1fe16ba973c192c89f7ec83c5086087034ad076626470cd107772ff23011249c5ca2fbeea5193d8ccca1303bd4af28f0 0x186ef83976c32e7cbd8bc45e7aaf775c16289c30919a8e39e8ede0f5ca4f7bd4332fe9717beafeb0dccb1a3add49223a (-0x381337e9f7602fc19f2af5316b486b12580987c0c71bd94747cc62f20af09767b88effdebb4bb097cc0d4ea68320ad6) (-0x106ff1fead7837717f81f01ac8c34c9fe152b7923a296a6850760ca1bbe4ea4c8e2f64525cba84179d3a54f5229a687b) 0x11da78f6faa66c19ebd70964bd9280022840175641988b0e15bde689e9524b297d6a5673627c4c299b2c4fb882bd4893;
  Add2 0xce6841a715e3b1a3bd9b88c1455c98d0ea7dcd8e1724563a0e1bafec1fb3c0eb1e4f4ed5c73ad8bb8050bf3534446e0 0xb9ef66553c5df18e1cdea713796e206e389706706808ebb83841db31e0ac0d8c2d6f61ea8e70eee84a88ad684ce129f 0x4905985129801ae4080185cf49114b4a580fc375e405a2640ecc8f7cb6e6294758110815913d00a6350b451e0aad890 (-0x8c5585b9752c2bfbeeea7550ee17e07ecb2c5c233890304e4f0fa3f2e60c49b51785c17aa84a0b903c6f9a47f1982b2) (-0x134e04d45c210ad6b3cd69d789fff7a0a8c1fa14733d2cae3d9a841575446c306854fabe5c1e82800cf7acac3ba48e7) (-0xb87b516afccf46590f79513b96db8ada1033a29589e279566f19994f7f22852be52a59e883ef852f596bb007a5095da) (-0x608e78d796fd9c78bad48ef358ea06b6512f8ecdd61496de99db6248e2f7855d54cad3c996bf3885c155ccd669c6b3) (-0x77efe11e4d1450817efad8f62dd3163dc107db6246e984899e98a585237e60856e9ce3b9cdb6f2015006e1cfd746fdb);
  Dbl2 0x1970cbcb1af30df2bb42480074c45c4952d59b8151b88aa8f2da444b9b46a63c54686cd34df23ba95639eb1cbc5e9e 0x107db60646b98b03323d1ada0108eb122ba8ea74a7337d9e2357b164fd0d535c025092af2e8e82c28a058bcc12edc9a6 (-0x860e6a0db6a4e2e2cc51ff5f31cba77a7decf683ab5222020a0f345670bc0c715611206f94bbb84999026dc66b256b5) (-0x92365f260af5a96ccf20d06fcf006aaf6cb04c05157924f9c5189e5c04b7bc06bd46fe97739995cb44f92001183bd64) 0xa752eef2b2070dce2bb3370fbc1a0454442288631309af1f7690b282960c40ccb3cbe9c9fab0a5d8b391b9d5ce7c99a (-0x20446f0f198633fd50bd79121974be7d62dfc6109fd0b8b435cc8ce16f39dc8b83e4ee02162de7330903e6d2ac7f3e) 0x37010add48a3deceb1fac4b10acd548a3b4f8200dbc4804038802f1d1052f7944d47a17f74b00c5c839c1ab2ab758e6 0x7e9d509fb48511fd4103d721285c19d16520a4c38d5589cc13fe3be1ed54cafd7c348fefb9e5b407eab76fc5a69b87e;
  Dbl2 0xe95ff35c33cd94c52d633cb9066fe07cc59125e4d9e7657a7b29e6c3fac178217eb08dfc1b92df8b6b98d8b5a9619cd 0xa2b73dfcdb2db6d63a83c86bc732e93c19ec13554a9bb4d905aaf0bd524e72d8cb16956e987da6a495e2a0c229b6d12 (-0x2593a8fc1a000d77fdc1e5ae0ae811494099890ca231e9a2f4b90696fdb6fae8e53784ccc0c88127724f10c7cc04c954) (-0x1722f9b50b19869c84776ae4c7f26e007dea10edde039ab5cd4c115dd413d0b2f301712bbc76471d97eabaef5e551fdc) (-0x43443aed646007acde90950b03ed7a0f01afd0cf543b5feed686089016bd973a2324ba472750d04938821f55c6354f3) (-0xb6896e4b4146c089664e78540f6035f89baee48fc3d116f13194ca584d9bd17050b6eb8582f89a7898f4835e28f6087) (-0xb37aa7ca2ce41454c13f4af93b3c14d0a8be97624def16e103786c160ad2c584b88c77e2c2a84684e6fad0395ff7dd9) (-0xb8f6a9a7631b953dc655ae1f0c8b482d72ad8b922f2b582b731058cce4a3cdc766e0e3b825b6558be605cc41459e1ca);
  Dbl2 0x11845a69e038463d44bafd5765ce5e54836b660b70538da716a4c4f9375aabe985a3a6c302f69dc0889852f6fb81ecf5 0x357117df9ac9a7f3ca016621ea85decdad0c9efb6d540a98d9429b7f9fc891d23020b832094b4c3cc18b145514f95aa 0x38dc43911a23f5cb07e7dbe09373de1f2055e23b89f6222d6d4a62f9c295b711974351dcf5b6913d241183b411766af 0x1ea6e462d116631034ef8f469751eecad332e8ab3d253d40f7011a355b31461c775e3eb88fa1cb32374510a837a3b55e (-0xb5eeeba79420e6a0f86741bc2b718a16378a6248a639010c01bff4fe68b785d707080291381c6af5d8ab4bdac4d4f45) (-0x47ffc9f02758ba45bb65099dfef6a8ef3253e3dee8ae65e0382d67fc9dd4dfa074fdcc1a90fecd73ef9a47f93073e49) 0xb029978ee74e87fa51dd5b7bb0c2fdeb884746c539f5a24b9c2ed9995b763e8691698eab7670bf3113efeda92cb89e7 0x71e2b0968288400ecbf4623f2b80a9e4daf732f8e1da6d504c05bfbce3909da37423e91923b0ff2125b52c76f1c90ce;
  Dbl2 0xb911c8a50be1b622d29e6ca120481600aeb43ebc1e7505895707d646060b21c6068686fbfe7190a22dad5b516312e47 0x17f816da4a27b90dcf5aa9e2830a80ba86f12f28c02c61dc7f67e028b2931ad9de40816eec781511b6f8a4f1e20bc7e7 (-0x1d5810396d4124630cd7909384079f6febd98a8c162c2cb39b3a1d17a13561ed812b6a070cd00e7cefeadafe9ff177b1) (-0x1e33a80313dc15abc21c2e27f85bb7f35a2e680c7abe1f847b86ccc462163327f037470375d9fe25783daa06baa16d46) 0x10f2c1d7947738ae610c1d25160339be5f0f629e9ed5d4cd5bc6b697eb0deff9569ba822f9acbb8fb3935d1056487ba0 (-0x1552c04f5fd82a461f1e56fb2e30ed3898b152f02f70ac3faf82810b56a150f65bec2f185d020834d5752acc06ee5fa8) 0x63acc5f47e6fca703c305740de725aa810363017d59a0192213a0f7ff270e8b54a8dd5243546be945c46c7bae39360c (-0xaa94c154479295943b37ab55698e01b0ab1b2438c122ec1b3608fc8e25effe5da4ba5f2473b256af853f384c9317bf);
  Dbl2 0x18cd8a1bf08a0892e2182fc44fe507444edc771ec8105c67138f48c0850a3c1a07666b84b6cdb0010fc8fba73cf333ea 0x84171a1c7d3f5842f1e499b5e6d1e1cf69aad1112f076355c57f2b3cfdb7428e2e1954f8c7414d0598ba6e76870d9f4 (-0x1daf752829863e4913769221e24b9d1056bd82edddbe673730af3e882a7d51e15f127af90540686c0bc7980a548130dc) (-0x29646bba9c70f314f98faecd572dfce488268fea157fdbfe3e79e40dacfe2915e47d7b7ca2824c9fd87b29567780c34) (-0x150940cac4e53c89a8ab177b6308a3e305349cace28016b5eb7a1f794ffbed11411648c8c67c3f35b343b678db77655b) (-0xfbf9f442fe1f77afa74308b7fd3b7313d3578a415956f1dd2ca7db2d97ce9ca8972c5561c6887d79448f8080914eea8) (-0x1c65228c1ad31986481f994ac4ae44bc39fa14f9efb980852b0153e354da94ce5397c29a83e1c450c98bce1d211b818) 0x8f9dd003798369f9272a96e8b033d32ce78e278d818947ce90503f5d5a7d8c7e7e1765d8acc1f82ebf6c613dae9b375;
  Add2 0x19548d08de083b98c6f4bbc178fba1de516b485d99b0c618320e7055408630856b61fe2a65719228c8a0bfb10f888024 0x19552f6da6cf3579a2399cf32425c9921578f1c8199953a466bb77b90a9c52b947989edd6f5ed2737c4166e198c3a002 0xe3323e29ab23a59597f6af90f03f2d9a9a7f019f101bde29666b779b296098355a0d157b72c42adac46fef7864554a (-0xcbd22aa3bf0c09b1c5c7e80c6d16e8c32bf7d09cdbbc25a74800401d2e9c43160a84f0f60bc909646c786b2f4d75c39) 0x13c62cc87922d1dcf68fb82169b3d082e773605360b5dc95a83e84908a632bb439f196546fc98f0b27502e346ac18 (-0x315a3dc2688f33778b769ef2341b8f6336b03117ee4399367bbe8149795884de3fed8f5748d1de0cc77be6b40b990af1) 0x836589c9fb503efb9603595f9222c087341e446a4d4a8bb89c611f65992a6602813d74ec5cb00874e62f157c400924 (-0x87194e6f97e312f5490fd93a5c79384d27b2b06eb6ab3814c20e21655de26669ffd95c36b8dc4c1cde4a91de3552a18)].
Definition tE2713 : Z * Z * Z * Z :=
  (0x1182ed5cbd3a52c7710de1d20230d7741a067095ffbf6e4ae7d267fa95ce7c54c78e92f9da4d42bed269190c97f33488, 0xab4328320aca1ffde8f4b60e9cbf691a0ac59f36b8b5841fbc2be832b7b239271130c0f678b421f5a39182f4833ca33, 0x1327beccb81ed6081c76b703e713e4a27d3286b6e62e68972ac535542242b37f7861aad05a5d1e51ef4c8240f58eec29, 0x18eddd0ffb31d87e086bf17ed13283808dd5b243fd06f6651574a8fdd6fdca9ba36097a2d44e3046daa0ad6981a403da).
(** a point of order 11953: psi multiplies it by 3605 *)
Definition tA11953 : Z * Z * Z * Z :=
  (0x3417f65538ba912e9fb4741e55868c521935da837394d9216b9e87150f140c6e15720728801120a7b1258a359a8bf63, 0xf736d96d25da5891175750c531b2534a313e3bc62f2c6d63cd618681d6b5199116dc6fbcecc9a6110027133f2b8becf, 0x19541a07cceef97d272cd1a06d0ff3444f5c379eb75fac490eaeaf6a3890584508d67c6d054e8add77c3fd5975ed5a1d, 0x74a67d2e147e22c0260decf636536046c616d9f5ecdde7f45feb29a27a26499f72c0b992193ed5068c494b0e4af0b73).
Definition chain_A11953 : list step2 := [
  Dbl2 0x163dd710d173e20ba75e263fddfcc95136129002c54af219ab4720c3dedff4bed4f60017e7bb4498c23136520b041d4f 0x9604e6cb82ef869a55425ca56358ac1b58a74a6b7a3fcd0e08b91c4c3c8251608ec18d8da3fd5b950add551aabcd42d 0x4063633d2e844aecc873eb865c751926afdb9417b0d72aec6d3c4b449aedbdc7eced0e6e3bfaac022b248eccfc527840 0x132125a58d89a673a4fdd1ffe63aee013a87d6a0b8f98baeac70fe7eb06cfae988ed5de7fda326e1b22fd6f9db72589a (-0xfa4842534d0c930a3538a6330f4d8b2464c015294f84580bcbaa05302c2cff356e8d2c2380af2e7835ebeae6f300fd6) (-0x1009ffae77e27b43da316cf5548d96f77fea5d9e3cd9c4541364af61762a9b3959eee909696c615ef0538356fd8eba1d) 0x772c037b7a7a9e6c85b0d093e4527f92b9a9c85ac5e7b651bb0f71791c6f305c56dc3fa4bc58681378f0565e7e4f1a1 (-0x4f91441261cb7c3c831fe9cf061d8d45a4844e8271078b5771f799c6843bbc448b33fb8e4f503f4b4b80e3565ff1162);
  Dbl2 0x114c408133e0e2ec58c4c72cbc16eabc01aaf03cf1c8ddd1c304ad9da3c517db2079b6771e90fe816095757e53eb4d4b 0xa97f58d2b0d5d6e2357e82b5d26be1e3f13457013c8dd02367d09cca5bac1fadfb70f90aec43d5cae0bce291ecef893 (-0x79bca537450b3b20c471448cc258f7f71cfa068f9ead5527e03f28a03d18b25cf4bebb1955624314127cbe24f06b13d) 0x13dfed8408eed11c4bad6ab331b1dd1693336107c5333b3fba45323020a8831c2dc5550d23b1f07aab7a22c85f0ecbba (-0x730da95e30a93958ddf4ca42da971797586566441b8b11d54ee4e31a6167a3e742863cc1ecfdbb245255bb22683a051) (-0xe17f71b3cb3bf8b529bf8a6dd678a5bd1937ada1df9c7db597bf22fb1c9ccbce67d6ad479e6f76bc4e886055a2afc36) 0x587ba64746e5192bdbd18373c77d26984365398a36c92e2fdc066c9722c72d8e407a91eed25e48598a5f1f291549b8a 0xbfd2270962bd5fd131fc0361053df5855f9a8d73ce26571d03b2c7bb0d81574e50a963f4cbe0b16076c8d214665ae87;
  Add2 0xd10d36e2e98d78b145e8869fb018044ebbc08eee03171f68cb6f0c44f947d3a8c7ef376e8b46e41bbfb5f8e9b3d68f8 0x8296a68a0bd0287c3c29ea6f46bafc3d8ad079d4644931ecf7b6d27b1e6596e5d22dc538b0973da9949d8ccd04332bc (-0x9510ffc28fcb73b1af5b44539e4825bdf698a72fc3163ab22a123c3064caeb91b8b8785a9520bde1e1e6bbf4b83ad60) (-0x6c357e703591bc27e525ed42e4b5a67021ea6b236085d4dfda368e66666861591d975c4618af550f759c9561b9b453c) (-0x400ce3aea18f881153739ce0c0ce97c76d94f0a2694f916e41255e8d0ec2bf882b8880bbc0cc7b29eb9d0e6aad2eb46) (-0x833a45528335ec3779d52b28a89c4b9ada124141a21caaed8431a02529ae7f91d873ab90aa0c3f029cd0a0b0b00c5ef) (-0x86ca033e4e4b1f070c7000634567383ab488235dc9c42961bd4cb3a1b029ed7dbc080d9b5bcbdc56190ac5c02090e47) (-0xa25c846b8cb6c75525b737975a700a0b47bc7bc959e23e06298967982216499af79df5828fa3aed18fc903f0d1a2579);
  Dbl2 0x1235997c00f09eaab4d73e0a6701767d121c9035cd081fef61c8c1a8946166ab5189e056b0d69d4453b5c3bcb9da3c37 0x14ec3ea9bda66feb407b7b543085471fd16a62e614334738962d717cc3ae0c96939865cd57bb9d127328cb271de4b825 0x400f246aebac946fc619aac9f8960267d510e8e16d2ca6b5419c1acdc675cf8535f38163bcd818361c61c7868a57cb8 0x35d9bf34ef574ba0eecc2a7503e7136cb707b3460f4b408d395bf31624ff6aa22739e4b05e6e42f24f31fee7901d3e8 0x41554f8f04224597e33b105a3e7e1db4b2d0da41c167828f4617616f01ff711355918bbcb0cd2238d21722d372b3408 (-0x1d4d6614e92b215d5b31dc77219ad7a65749de1e2e131ef7412ad7d68d34c9437ad16e10e042ae83c6eeff639f394bc1) (-0x672d8aac67f4f7a7087c8086bf5d7097362945abebd2af153c95c16f3d3aff495da86a763c27cade736b268aac3b549) 0x9b98f8a7cb79c062222eeee86d7b2c935ee16af86b0f35ab10fd82a0d3a88f7bf636d4427a0b5ce140615db31e42534;
  Add2 0x13ecace5c6dfffb41e44b5877375bd171d2587768c8bab70f8ff5668f4fbe585744b58f2dd411a328e487f9f66cae2b2 0x19c489cc55edc6da60f5c4ad07d7df2299047e0cd442652e82102bdc492e2d97d24a27250d7131ad1693f27d7edd7f52 0x3f84a44dcf24fce7e1129f62c545ac17b3ca9aac58903bcb41b34477c74430183dff4638c4e69be553d0d08774f9fad (-0x4e7aa8e2d259488ab396841ff02b1881fd5b4361051d19929724f60805109c4f4193f6c2fd4b446813a5b7b8fbbb478) 0xa4465d3f117c3cf4048e3b1a3582eee87bb4abca3bb84c98e5ad34442a1f595abef003a7fe6611ee1f76e88503e779c (-0x277c9769ed460a511949acbcc4b93d47918cf010cf991b172a4b53c2344c57d7c9075d38e55e8541261b0f67717a220f) 0xa384351056bc60e44ca06b43c25314f9433ece84ca124bcbe8a2f227291dcbaec0e8c0e11e9025841280eab42ce684c (-0x93d92f4f0c454a0d2d1712a690a41111c163d0d43626c86a1d877a769e9b6a0cbf3624e658e3bbeb0df45ef8ba15e0a);
  Dbl2 0x1095fbd10c428b7aa51fb26c1db06ab90a529a3807d4d692f3d2d7c70dc8cb43dedc2380787fa868dfb9ebe5175a19f4 0x1698d1a03562ae7b5987c492dde046b2c355da6e18fabfd09baf5dc492e3d464e2b2356a77c16068e5161d84882d83d2 0x16800f79447085fdfb7e90cbb4eb0a2d5d1a49de479bff17f37e323c129965bc25c27c95397de887ead8aaf48b82f85c 0x1dc71f5ab310ec2af6fec131b701fdcc5ce2e6c8984cb33827fecd7b7e74c60ef6e32e118a9b0928fd693d3c6e3b2ad6 0x90eb35811714994a60eb9548464b8a871872fd986c640b3e38e89c3e248c3786e07d30beb95aff8866f7fc3655cf007 (-0x1cd34be1a15463174bf11cfe7da27626beb063bf9180366ca4b857b2a8d32cda1545fde7cd9260d40841fe1bb818b8a4) 0xe050e3cc8908aa3065a61d0c07de6198e90679ec73a2b651f841436ffd98a0573c8323ab01ffe6ef22dcc18d49572e5 0x63d6bd04b1a72dce9a736519c57548abc2f1cbc298971e3840f521706d66ef087429d3783f0e7e22aab732fda651a02;
  Add2 0x10e12a11569fadf2cbb9c4ba686da0f798bd7d4cd209de9905dc1d574617bf596fd3b76442dc029b3c349e18edc6886e 0x1648146c511be3742f316390266f89c512687a2e7ac09dd1e36d214fe5f1e3f2ecc6516fec097235af37cee8b033cc70 (-0x13794eaf397a6028e109bf20238bb96bcb76e2c6feb429bcedd26620ff0c7aec36b4750db108a620b4d35909066a9134) (-0x257bcb0129db376db0c553b6d90c0e8f12eeec0cec03ab316e00d74e86cbd217e6e960a3f50e3cc630a4aa2f79ba012) 0x8229b8ff56d7448c7d8cf8af673503762c3cbd400d9d36b68acdd91a3ad0024253309962736159ab3030d621914db9c (-0x1ced23b8acb817195ef3d13a1f684ff7328c0163b7f3e29b7781f318d0f5cedc2cf597b5521cd7d55c85f564faaa2ac7) (-0x69a3690c90ed816c3c4c9b0bf3a1ee0be3e27d4ce39734648b4e54fbf45e469e2c2ce0333bb68975c282b3dbdf8ac3a) (-0x9cba7185c2ce45adc24c952356588cb40e954e8831ccfc874eb316fd0f5be9b611b9e021e90dbd0c01887d45c274c);
  Dbl2 0x89b4a5ef7b1764a064fa534175eb855cdad937d2ab81ca60cb04eaf20d913f7c1cfd29e4c19d94d3781c597bd73beb7 0x1260f749ffde6be073c0da5701d24b1d9fecbf10ea5600d734224bd2a0530e47190d78fcb02c4b14f532f6ab336b39bb (-0x2345048c3dadf9fca97da2662e6f752e7d55fcb5038ade284e5524166dc7440a6d16a2227660c02d49419a4d7c5c2b24) (-0x3149b2fa9e5f43e910ae259e7b84c92fafd5b113b2745a2c900d712d7630ef0f969490c7bd7bf4c0a2a29b1631f5198) 0xa2411c4c5a57dec6dd8396c67fc94ba83bd074ce8aed5f86bd3d33dd861c0ae54a4e13a705ef0092383e1afc4829582 (-0xc2a67bf3349943243de42467de5d6f9d9fb2fee10b4360d31b3fa1c4ca1ecaa0092980585c0ce0190ba0c2635963df8) (-0x610eee0583d4c5702ea3fd2fcf1457fd46f6338a4d4add55e7346fd9af68401e5227411dfe75669e0fc2f8f4b67b3fc) 0x2d5d8e8266b76fe9921059150267699da90fb2c365132b7d7b0c7d9227e88475a0635f6cb37276a3e28dbc4175cac9b;
  Dbl2 0x96f799b6c882856786960bcf9786569ddcc179ac3e727312aef2d239c871ca7f2a9f1db56726ac6da45e6fdbaa4a993 0xabd453dfafd4f5d8346591d09b353bc7fdd56a25b9a2aa928f61354a5c5f1007baae9eff290b01936b83249d5a6c885 0x5c67f957858c3ed27b5804b90373e3e4b031a7bdf7c289024117e4d5deab37df78245f90027d209606c3836e4cce432 (-0x1ac0e1956ae0d98c2a9a9de3b588cc61ea8097da88ea6e10606f98dfa4e656487d2ba71f4814fd6f24847ef3dcdaf70a) 0x102f7d33f88eecd9cd1ad975a56555a2f12902413923bcd50306ca98fdf4f5fda9fff26d0f809e7171834c95aff60a7 (-0x7cb1c377c9cfe0bd9bbc9a05381c879e8a5e24ec03436a8b41871c390e65b6e51e9d60cf5880c21511b78cec243361a) 0xc9c25ba9a200a1f7a3efdb050a53e4f6d3ee1dd658304dbea59c117baee3b31ac4c59c6b43439f29c92d65b961ff22 (-0x88f4713f7d1702ea18c411d53a7b9dc254131c8eb24e9d181703e092c2ba6fef31b76b69a9d960b6f02eb2018cd94bd);
  Add2 0x175766ef94f5e46648a835a818c37454e7959cce0ee83d66be21f739d2601a3091a82cc1647aadb20d0a23d01644be76 0x89a42da6d4845558b3e652cc32f3225d96004410edc4998f13ddc7dff183103d883989aa97bb73391da0bf24fcf5ff8 (-0x203ddc4abca65d4174d027dadd9d034943c0dbbd7d89459628c1f4e05541070f656b13e16cb509eab543b359fa1c305) 0xa7f12fd55f5907cef70dc05997823311d016cb29b80e5b377239955fc20393d5500c3f0beaab698f9cf346150ac41a5 (-0x121afe5561f8f879227cafc683a17f21758338505f2c70bcc33dc3cde4478afcf8d6ba6cc21b59d7f73d673cd237aefd) (-0xf7182854ed48c088ceb287b7f9232874a27031a03f7b57caa0f1957b22520f496845bffb5e326b37ae10edf67ae0aea) (-0x297d7f9cdf660f824fa62f6806ed5454bdad0e6b49e2d3c4e5704a02d78dbc4e7c14c6e1aa80adabc071763986b49fa) 0x72f9ae18d83eef76becde097110dfb502b025dba981965c5c9cb5124784571618e257f1c760f09d2a684aad4cd603c9;
  Dbl2 0x8aaaaa332e4c70d4b6f44ee181bd4653fde20ef5c8b7d0f5eb28569df3821ffc10777b84b8c27cb05177c27dcddfbd7 0x6ed93bc1f4596089d9bf03b4056f914f9d6ece1bae099c0d342304ac48cf0b9bbd62317dac0a8d6f1360f8342857a47 0x13dc9dcc9509a719593b6e5b5b897e98e939700c6e623276130c55e966325bd3a6d644072bdd8a74485382191118b526 0x168f802cca9b28eb817f371c4b261d1fe4a4d223faad3a1b1f4782517e8161874e0f75f78fa843deb72e18a3dd9c41ec (-0x10aeb89a9a9c81b175f3aa08e4e6bdc98d55ad9e381361a27680885c1e4cb4ab393efd60781ad88c7c3a9abe37f20f5) (-0x49e31d2ca3cf10d4c0f3b73e0c9bea37806e6e5e52a79348eca2c12b753734dfe9c40744ef9b60b490f243da73b5325) 0x567584f390bc0d941d93a43c02cc876c52ab352ea3fbfc6f09f3effde46f3e637e9951e06deefeb4f6941d3364def25 0x66ae557454513625c7e5334b1ecd965f7681b70efab4fe2abb4e28fa30a5e170c88e4fd6498ac6ae700672e93fa68b3;
  Dbl2 0xf6b852b326568840965f336126bee05cb0c1d412133bf25c6f891f36293802792b3ad9c008c10d642417e521e991ca5 0x1882f0c87953abd4478b3efc1983d9579105d57d92c25a55a6a8e5ebe796fbb6d552d5d7759bd1922f57c9e4858ad16f (-0x14c13d93a0a8ebea029c398fc7942fb652fc494c42a8e7c2cc634322a4d15462d5fd652aa11e11b14ccc45021ad364ce) (-0x2f87d4a6c1015d461ce8ed1435c3b9afcc8f1eca5f24482cac8b0fc32012ee088a047f12b9818c67e2ecf40bf6e4a208) 0xdf5f06f7814c45312f65253d5a5368bca549fadac2ef3faaa671fc784819bb00013490cd89bab2a39d80fd671bd2d0c (-0x1d11d95362ba446ffa51e5948f68f0f03f806bc9ae0ccc483d5a97c08343f7efe573994f500b6383e755cd1f946c4135) 0x78434c19a2b3d71190a5e0bbbb9f024f7c203eb49db771ffa2515cf1253deeac090bcd9e4b65bb9000e961c4908af (-0x79c1a0389a84cd0b427c1f3f76e0210c887148a60f12dad52202a36d58ad3e812bf86a2eca1fe87dec178b98f1e9297);
  Add2 0x2c6dea4ff05cd0eadf910aad2ba689706f92ace733fa92959f62f61cd89590dc2309c59f042c55f5e801fccc5fc8be6 0xb2e1eb9e9f39dcb21cf7b8e389ac4a2e866bba4a59cf412bca99cedd1409c46032eedd3df68bcf1485dd7a5eb51a155 (-0x27bd52d4ee490743fb565aa4d2c46e5ea78549771a8df0f3b67423709ebdb43bd6007323bee7cf9474a54784eac1a02) (-0x4bf1ca52aaea0eda38b53b50f325052a0159a97a0aa8d720ecc56f7b23b8716719baf0dd5214919c0a5da34bb641920) 0x4829f12735413af8759d9c1f5330ad1a122feeb0fb1326decfdf27077cdaba1b67815767deccecf4260b76412c70a5f (-0x263421b9507895320e2b271018c74b6126ffad43b02ccc0b3e40363afd06d350c07a80c76699f432145a4419314218b) (-0xea1b4b65a02817cc0bc712112b4d828eb8870b61b5654aea5a340630db1e7532efccf0e8db49da151f5edbff6ede67) (-0x3fa5b1202fea691d2296ce19be863c061d004f1b45e73413896c7b1fba1bf21adb835a4679b8d4ae8fae7d11d5f1f38);
  Dbl2 0x19b28d5fe6633d7c23303b160ebc5d2acda3e86b39a16f74bb33c0108c3daed28f8f0fc72332db1a5e1a3fd5e49f559 0x35257571201df6b0deab9bcc73ddfc742b086f94aabe95139f9667f1bd3e9ea5208c105fb89c281efa804d76b61465b 0x7f012a83089d9016c67f2c8cf38613774c0cdb6906a3404670def2c4647fd915a6c7afe863285b8acac086e33acbea6 (-0xdb3ece6f006c08f38d0cc623b00ef5897ba79e6255e84d9fb00cc6f7e7d54ac56d5fc76fec0d6e164a43a30901d4884) 0x533957c59af0a39d3e660a8f06a323a61b29e9caf6efd6789afd85b15ff7ed554d8c93d90617f6f90eeb396540afb5 (-0x6909f97d903c9dabf20a14ee18d33da32a1840ede6d302d88d6ada8dfa64074c1592b6370e9bca87643e943d7624ee) 0x11248d2334f236395fe1605c72d0eaf7ef2d6f2d358e18cc3069dc8a9261289c4a73e8fdc15328ef0267c8317e8eb34 (-0x1a2cf8d0ef6e2a99b31c9de64fc541e2b4d77535412f239098f189ac271ac018c17df9a1b3d909fd420fdf0e248ab1);
  Add2 0xf4b854353eff8dbf16cfcee4d71b982acec1046d693d10b7e0e66c5401988c80591817f59732305b82cf518bb1edb6c 0x6c7e2040a486877f8b786e519a4ffa1fa86532eae75c657b2e64f078915c3330d8ef12b34d76702dfef24f7323d3f54 (-0x5afb5c97ad49ef8be1154e0ef303af4699475a4bc0eca8d18ca4957f255db5cb2b042f65150f9dd7b94844ac03feb5a) 0x49c0c690125e6b2c868eb0037e40710e6b82ba59ccf0dcbb4a88a6d5e253d15ef19a856640f5da6e508e2f08fe62280 (-0x73a5d8a37658ccd7a505cc67b078d172c7e2e5a7c9cd4fefae8e301098a55a981c00f7668e03c89cd0a0b634d7b78e2) (-0x7fa01477451e81bb2df1e91dc0ac6a5f9f920ba050a8173699a213cfc589e9038e55846466236179d316e8b2adc4247) (-0x679caec69c2bc7ef4eb5442827c22b8daee4db12015fb00965f3fbd82e5aa9cbba9d42921105236b9f04ecf50a02c37) 0x73148599e79a970c16569fb08ea3507f410ac76b8747ed5f1e1fddc8aabbe8d1af4e126f8e4a0b58917a0339401aeb5;
  Dbl2 0x4fc6b3514c009a742a3d1b9cac0d0abebe988d47e2d24801eee24c7fd40d5e5bee20ec1b76e4142226337441bdc4468 0x15f3338817be8f4a92906e2c776e914cbd9e4c5e07c1358f30fcf29a789a0883b9bcbb9c4fcf79ca291313f885e0fe89 0x26df5a638a32d62c63e2ed798bbeaeac8b525b32b2841ab977fbec45eb91598513ce8a17285ddf61a4849f8ee1bbd528 0xd951bd64a6fe01671b7cace87ee7688ced4c0128a65d5fd61eb52c0a22f6e799a952a9fa340542dc57299286edcc580 0x119266f71dace6dbde405b8568afa51973b23b1bdfec15bccbe6aa9fe7133e574427154f55c4002f70721e546d22ec69 (-0x86ad68e867c656d29f1b9c48ef93ba56a57bc6fddcf81a9c1a6d2c3fa6be45ec30ac70db6948ddf40a34abea279f111) 0xdf06a4f6cd98eda6d2631d200cfda338a823489ba96dceca89afe8acc77a5f4aefd6ba404154f0df9f60b2c4af7593c 0x91914bd6e595afd04ae623cf8cb0e9d5553d04728c2ab0588539f8e53c43de6eb9824f45aebc13d5130281852c61006;
  Dbl2 0x364e1e8204bfe09426f8260cfc09bb7503b53adaa6d8a85e88d71f54d6ae268b13f5e606bd716b58c09575c50b066a0 0xf1b96251dae7b0b53c1d263a08744de30bb7db0a077849635be64d81f01f583a7cf1e34ab36d5c069bcbaa4b6538a48 (-0x2ad24fe541c4336eea23e27c884af2375d00fa194aba77363b5ce1963178f81e8867d5a5e148609a3e8e16fa699c7ecb) (-0x1085cc8cc326868b748bcc53ca5cf74c5c7962dc5bb0ede01c254848e77fab6db2a8403e463d0a746676fa7dd9f1e53c) 0x8558fc2d3ebfdc09c83c712ac0c3873d10421d7fa61906f2dd69755b0016f18d526b0104252bb23006b86d34577360b (-0x3f198c311c5f2b127a287adc119c5a8f9f1509e5aebfdef5f805e3f916b1f839ed0864fd15edebc25c98ab298d6b691) (-0x425550e2757368e3778037dcf9e955a967d9bf38c2ee7fd26efdd994c1a695480b1feabbbbbfd7c84b026448fda5bc8) 0x436d80eacd62d6dba299a6f85fdf62af3be6c76fb83a1126e6b2eef5781b35cc7cc23845794a22c9247012884d105cd;
  Dbl2 0x1373b5c57b30431d900277a1af1155c16d47ee6a0b135f43033ea4ddcb011bdb8de9c35106e41eca01afd611c3fc3157 0x796ede7437ff61d41f4a5ccb534a69520c130ba86b404a6f60db26a03564aecf007c3762b60673068874598b7c8ecaa (-0x226a859362614c9a5f45ee7111793d79b64b1998a72ac06fba5adbdaf53fd9be216aa28f9a9237954bc18cff8628744a) (-0x34030788a6e44e2caf7aef446af5e00db857a2ceeb187b17542fdd476a94e985decb2e148213a217c357c1eb5622e288) (-0xc55ed304c271023884820ec65ceffc424236bbdd837922174335206f059621dc96b0e0352d15433911b6352beefc595) (-0xb5ac06ca84f6413354a939ebf8c707cacfb9bf1dc1f6a2bd82b5c5995a88485048563e451837e82753614751313113c) (-0x9ca94c36cb9237883652b8c88508d52032a02835a49a06df4bf1f7c7dd182b17ba47ff992fd394341cf0e31d48e411c) (-0x68d513edca22c56471a87977030b94765ec016a7adce7cc89d0fb5e0daadcfc734840605c04aea82ab45a0d1edd2909);
  Dbl2 0x15fefd7aea43cc897503909f913fabbcc74e4664b28d29b765bf126a41ec73a5f69c87c0160e74ceb9d48d9ec84b04a9 0x86bd0b45c5c25b839b11b40f29c8b3fba84f0553e6f3e2b94b52ce23b7754f889d14f5de55dacb22fee07f1a02d9815 0x22f153deea33424b21588a9ff5faddd6df8b7d458ccec4fa44302a2710f341d1b77b2740fadc14602536dc5be6d30066 0x11bc6b181c3d3f8b9c4c252af18195bf88d7a11c9ecc55e9127ff623b4fe02e82cf8454ed520bc05bf2121e1b6aac166 (-0xfe0ed97286eaca37d8ba22d05d7d08f66c42a3f6c30b9545d8289d4ae4ee52c401aaa5cf04776ee11bd2b283896d717) (-0xe3f0ff2a661319f2eed9c2517f21227e3f803fa7369e8338adfb480fb558656a8b5670de3677a4970356b30eaba2ad5) (-0x5da4296b50af44a6bac3a985b7442ecd418b8dba4283dd4eb60dad99f8155c1c5d62fa77fe8236471848bc1f81232f0) 0x1aba8b59f6dcde2e0738e7e130f4a210df65b59ff976e497e737ce85427a459769c633f252df271beacadc170620747].
Definition chain_E11953 : list step2 := [
  Dbl2 0x163dd710d173e20ba75e263fddfcc95136129002c54af219ab4720c3dedff4bed4f60017e7bb4498c23136520b041d4f 0x9604e6cb82ef869a55425ca56358ac1b58a74a6b7a3fcd0e08b91c4c3c8251608ec18d8da3fd5b950add551aabcd42d 0x4063633d2e844aecc873eb865c751926afdb9417b0d72aec6d3c4b449aedbdc7eced0e6e3bfaac022b248eccfc527840 0x132125a58d89a673a4fdd1ffe63aee013a87d6a0b8f98baeac70fe7eb06cfae988ed5de7fda326e1b22fd6f9db72589a (-0xfa4842534d0c930a3538a6330f4d8b2464c015294f84580bcbaa05302c2cff356e8d2c2380af2e7835ebeae6f300fd6) (-0x1009ffae77e27b43da316cf5548d96f77fea5d9e3cd9c4541364af61762a9b3959eee909696c615ef0538356fd8eba1d) 0x772c037b7a7a9e6c85b0d093e4527f92b9a9c85ac5e7b651bb0f71791c6f305c56dc3fa4bc58681378f0565e7e4f1a1 (-0x4f91441261cb7c3c831fe9cf061d8d45a4844e8271078b5771f799c6843bbc448b33fb8e4f503f4b4b80e3565ff1162);
  Add2 0x1541ab3614c6ed8b1d779647336a915a4b9ec2515c8a762871b6d43a7746d181630b1c73e1110b31f60288bad9df45fd 0x1790c429e88771ab6a1798db5e81267c5f810f946faaaa187e3ad2590d57889fc7f3e8e1fdf68ce789b072b4c2cfe26f (-0xba445ea973102cae95d2676ad985fa0cd00e0cf56af4a454a6a6de20552bcdf94baa3d984f2e26623594a25f85001d9) 0x1c4d0dd05077abfc9cebc89e16893c434b598ecabcc652e8640b74f24758ed1aefa01c760e683a551bdf3802a420940 0x3fad7d2ac9c4333ae61c63e797f4e6825c7c0fab277ad731c7e703f83981cf0625c41a56ece095fa565a914d71acf31 (-0x2686b130d54ee252f3a92cf6d607ff3bd3277c560c522ab8000e4cbd8f7d0d320918a1372dd0cdc82ca69128ffe049fd) 0x9f83b8cbee7cbef15fd780020c96e7ddaf324ea3f30a81b19e2b57cf0a6847c0ce55824ed3912adfd94f4388b0335f3 0x863ee5270887607d29613f301446e59ad4e2159cda7497315edeccb7c3a644d1c6f1d1640442ed1a71fe50821db45eb;
  Dbl2 0x19e177fe4d75fe61ffae5e10fcc55c34c581e38cf1f8d024afc06424d376e9f2448053f43dd18ee6cfa33c2f006008a3 0x179f055a547f19672cc02c4ada28ac0927e23b53490e6b6f3604a059e7864978e5cd6852cff40f8c7e9a09b5e194458f (-0x2921e7dae33cc4db2b25468495a82ebab6399e92fc99116c8eb75aa0ce2f0c7c327cd7510f6c18fd2c7878eb1b0a1529) 0x249b5a875b5bf40d2ba22280e4839c5c3ae468878671e5cae6ebdfa400acd6776cfe6af40d8d1ccee81a2d2e90c02822 (-0x44d2424c39990f2b0ca676ec66b5250989767481b2a6857655f9029d3558439f36d173bc64900b0a768eff22ccc4293) (-0x2f04a19258cfe8528737d4d0f53fb7b414050f207a1ed5147a3dedf2513b376bd9859310376a4bea9b7ac064a3537970) (-0x14256a45a7cc6773749dc9c20165710f587e48d766850b770c1567dffc3aef0408988b51c5674b3bd08ba03898f539e9) (-0xff6b44d123fd298efd14878e1526bb924099986c0f24ae22554d5afb46803341dfbcd7d3e659d5c752efc986acde6dd);
  Add2 0x14634e06cbe6af3dd016170bb0799d9b1dcc834dd914aab9d18ca9031b56cc07bce7fd377f5f8f0b2ac448ee8e5927 0xdd4db7a9e51c9f82c975c604ced8406b1d0d0c4322151601be6d9eb7d7cd0bb482015906961d19188fcd031abc529d3 (-0x45844c6881a355159bb0408bed45a5bbd533f75f093995c0abe5576d09209d4f6adec5d64a423cee90244c1d198575f) 0x1b1ff7813702f8b7d0372dbab839464b964fbf9cff653d73ab22efb4577108815849d15a184330795d1327da77e032c 0x75b4c9cf454fcdf1fca9c414edb3d3a886e5d9c0bcd8cf2c2edb4c752c7c94cc9cb4ad8d43ee74e71f8fa90c26bdb0a (-0x15b03c8f7de5555619928eaa5a045badc609fc9664a353ba0d3da31faf220d44f0110678d7319b80c13176c1a08a1e) (-0x7c34b92c3ad28fe187648a0414f520d7a0bf0586ca53b4ac093f9080135c240f6ef6dbfedd98f12bb65f09775688b7f) 0x6bfdd2c313d586b2e6b480a445ac100fb0e164353121047f70d6d8aabf7a3c3cadac719b2819435e43852098e36fd48;
  Dbl2 0xb65029323fd711a430f712af6a4f7a1998f12817387bd8445e39de2ad7a356369630b2850def091e45b10f65a0a979d 0x1367c083a995b6b5e08bb8c3025b5930d2d7bd087eb71ef2265509ed3f6585a9951cd877f3ac0c701d49328523b52e01 0x36f95a6a7cc180b62db9e9322e1a340ed7df9921fcc9d69fc2cdc82c2f58e0c0557b195d1470cf605b21786d07366bfd (-0x1adc600f28431f8c483225bf7a1a56377a3b6ec2860655b794d8f605f300d509a85c8100705a882811ed41d9734240ac) 0x97cf03577e74fbfac27247271a1917c6a5b1396bc014998f7c2241d4fc9888d02319a4d86bd1adc2657c003ddc28992 (-0x11018fce04b76d3d1c39ecbb4b116139ab232eeda42f0f9506fc17c580f01701997f82a30b7a311ba03159a22516b32b) 0x10463125fa90a886dbbabee101943b74c4bd40a849b6dc3e77edae3fb2ccbd66b18ba00a626430193479dd04dc87572f (-0x43e72421a182175ade58102c2f29565c4367272b3299c14017c2d6fdaf4d0aa7cf9b1efeb7cd210777218177b77cb52);
  Dbl2 0x18c1b359d281c8e4a82e450380416b648eedd8ef72f694880e91d1b4bb96c6439d8e9e546174b8c582e631690dd0995e 0x19db896e0e84ae2aa1bec32d74955ae0efd7865e6ad2f734499b64670a429d5c6021e0aa3b708a89fcd747c52efb66a1 (-0xeacc2b6e51b1b91a7ff68cafdaed303adf61172e0ab5aa612169940b78b5be0d7858291871396396defe877ac6f7cdb) 0x40b53e5111e6ac3261422c2bcd088732e646107b52cfa1621b495a021a9a504c2afeb22d56e9194a7af656258a66764e 0x224900208b3aad79221a9ed5aa0904943d1f857ed2cbfd2341bcad034faedae100b4efbca20cd03299c25ed8023636e (-0x313befa7d4cb4f707f1a68715b790f2db17686c746bf7dea85e1aa78a2512239937385d1fe33efe40b88471400fdd031) (-0x19ccf4fd0c948803ae2a93ec895a283179f665f0090c4ef44c79f20e977216bda96fa5b5e81ee2ce2ccbb5186e532ac4) (-0x6ffbc8fe0d9b3cb2ef030c96d7d154f54a2b309219590a3cde24e57f3602801866ffd1ae99fc15d19aeef40df8b23ed);
  Dbl2 0x147ca13e443b151c74931d3ee083c848cc9cd4967142e2e8a719b59afa9425c41c43717db4aff4b762a7b104f448f863 0x6810ae86669d649a16f2e38bdf6d59059ea9a630b942ceb2519bf8cfbed1c90df1f2aafbaf35a249dde202beb2216b 0x2ae822ac7370db302d5d0eb735fa7c5514481e2a0158fe298df24b503428693b55a1ae10f44197e2da3cf850181e06de 0x19b41c6593573bc353042b1c2b4b26f0d5ea2f5a94a55182cc557a580162ae01e4c7d8c43b0f516c74905fe333d69040 (-0x10223e0eb6a8a520661e5db8f30dc170b59e06368dbe0743657a093237da7e507459df25f9e9154662e5fd62004130ef) (-0xa3f89471e20aa487e3cb12dcd7eca6ae89d9ef020bd930964c5a4bdd2697a39fcbff425722b0f66a833a15c5210379) 0x3eeae108a254d2d1863866ca5d5eaf430ec719eabe9aa397239e327d8403d8c95c0902d9e95424b22f708753435e0ef 0x5060f4411c335f6386dc045644b76c4ef0a398518399506f674b24f8e4f8ce9cdd705a2856702f92e1d70f9266a3f16;
  Dbl2 0x682ad240b88564bdc23efeb41d6bc4f8f61a8f68aa6a19f0a35aac05e067923444169f41ddf1c3d796b7ded2e58eef3 0xf2f4bbf1b8c57a96767c00c8795c6f2bc50872b7e1fb7976803697d637ae6456608659e32c8fe4bdb7b145393070a3f 0x2c33ebae9a4732d35115b54ab82224e88ffe945e367ff86014fea1cca76c515c547b78f48debfc5d1773a6b7d109c4c8 (-0x82cf45dd1830e6e41c1ccaa8e3c19adf28b7ffd444af81cf628a42d72493d15bcfbaa57d13d5568a52efed4e7c887fa) 0x73ca7e270da94d742af2142cf55c36311539ad41252e4da7a14c4774e9534b15a979e2916c433d71fc292534d5e81fa (-0x79a760de8c975359c9cd94744cb1a0b0fb35593604adbbc86b205f95bfd41e2407f38bcef5294d3125ad15a81aebf28) 0x178b115da596b0cab4bb36beb01db234be58d1a6adb5dbb6c89b079693e953f638f544d35cd912b59e37b943f984ee0 (-0x40cd437587bb27a7d6d126cf9b18e6337b082a3e8aa71c24e1a93e12581f41260ba0112cf297c25f035bfdc10fb377a);
  Dbl2 0x173d09cfda8028028b0202ceaa30f67b525d660fe921a96284c50ec65dada87ec9003ae0e3a0b20424ec790e18f78dbc 0x6aa7edcfdcc385b69ee22cb18b5d61bcb0481b632c8c7ca773e42331224918299aa070095b65e3351d40c6f9482ce94 0x1f3e52add04a65f3becea50ac339dcb6bb7600ea16b11e28c93f0cae6b5bd035bd410dda23f11127d09ae02ef65c9090 0x177b2dd9b0231fe5d026d74c2b7c9591f60f756077faccc374178e46875bc4acdfb1c1f88c0ab12f9e69398d2155a7a0 (-0x130edcd51e22e5104c2f544695facddd0a936673ed8b5b0c399df15af73397704f53e364e6e3976a7cc482dc10154cd6) (-0xbe9fe22eff414afbc1ced3ea2d3c9421b684af9b4344af2ffa5b09ac90a1b1e37793c30e73e644182b6c7d469882aba) 0x3cc8590aa3bc5135398584990f4f24d57478d63c1b17cedb3797a2d63cf3abdb7a0014f36567d483952873ab32896d8 (-0xb96a32909b8631b942c9189cd3c5190371e37b778ce91efb535e3b70562fbf1cf3282d93b1260c09d32e106ac5b68eb);
  Add2 0xea8e217eac587b5e613594fd443749619e4fda1767bbb4a0c1a791503d47a24a3729f867374c8a76063dc5b0397f276 0xcf6dc274806ce1a6edaf9d43885919cc4f21f7c578318722940fd102f09a525a4d158c9273bda973cfef13f0f6c5c6b (-0x62195f45dabcaf3f71b631bd9a757237d67dc9fa84f002e23d0b3f6dd824a7fb78df3c7d82fbbb100709f328c9927f2) 0x85020529e22a9c1e698900f55fd1d107abfc055f4244e405e9082d509c1df0b64130599ad8c281c63207e7a7e791ec7 (-0x1cd0f0cb40eef48a69ec701d115e9f8fc991f881679626d2b288e2edfebc6b2144f8cc51dcc5cbd2512667ffad78ad6) (-0xe9df986d3b2b8b29b7b38b224fdf6052a84842d47939e34b76a5801a888d54d26c276237fdae75947f6b81bece661f5) 0xb2212eadf3473ff3ee6d350f195c57ab8a311189927f4af334a7ae3dca6022df5259443d75f28723f4175f151f53f6b 0xaf4f241feccb1377ec7b07eac5c4fa54387639c0c7fc5f21d3432ef2b615581ceb2e10d01bac1935df4c5238d67efb8;
  Dbl2 0x10f8e06440c292e75ee16791e32b67615c903c4352241fa1a1a74ae326656e1fdf0f18f132747a3178ba04db7d28bd3 0xd06f7e8a567aed9a6b50396c58bd58e6b7ee7cb27221a13cc7ae95bcc4be3a6e2aca945b2e12bdbd0303ffc883f8b1f (-0x4e5223bab711082294088b9e916c62f6932e4689508cc98edf0b0a4b1bf8caff8fea52e216e7353545520c348f980738) 0x726bc37eb0ba054f1f206f42544b8301b79f0b61eabba17e2138dce9eff9cb88a433468aaeaf2c77ca6b10f408fae34 0x67ba13f2a5d9bf6c33bd2758187cd0c20aba39f1473fff62b259c125b631b263634fbfeccd1546928abf7c925f6c9c6 (-0x11014639f087975eaa9ec13391a471ffef554c9415fb1bd187537a34f91aaa094c8030835655c5651fe45d1fbf60cac) (-0x8e3ef8aab9cf0ff4457e12f2cca57e70d3ee7200d6d6e469d924a9695539fb7a3c3f274209421016d64d4003863b8a1) (-0x37dde85d7e1fd8b5a8ae1b6d96d5639223bd164583ab90ecac3844c6e7a1f9be47d5a1b2fdfe69ff6bb7289c153524e);
  Dbl2 0x11b32332abb0eff6a47e37ab6701c40f66403995a05a565d918925372392b095686582cff887924dfed3e5ea782dba0d 0xd415bc43b3e4cd1978c2c49fa5b74ccc0502e7ac34bcd6b0ea8318f724e9daf7f9faeaf489ecb7b4a0e8186900dbd0 0x303f1aa66405e2f26444406af9b2413fb016572ea72d0269d6317594444035af469f84452bf6554d5d76460329ddcf3c (-0x1fdeeef165981572ae1daa131da36403c670fa2d9556602dd95fe1a06672598983d669227b299703c923611a46efde46) (-0xc055d29cdb13106cf339b8e4987174671656b17cd48b5207cee350720183b2ea9ae350bca8764379f4d272114a2397f) (-0x120b61b9bb3e3ed7749601d3317e0bd28b7da9654d97e68937b29d360809401ef442eddf76cedb76c8488e025eff871) 0xec2c986c3a64c4ab671631e2ef6da1535aa2cc9c8799b148d02a4e6c5611762aa8d0bfa6b640d5b60a546671b224e9 (-0xa85770c0c947a9dc05dbac7287343ee6e690e81927f5b6caf70416bb11a1e132881b1576e5d4e103f77963e2280e3b1);
  Add2 0x1073785f8c25c030139c9f5a9387f1fe9f4766ec4683dd02e591b0747f3c473d2521984fae5e89d15ce816a2035d0774 0x170cb21312c25dd28fa90cd3102a49af7f1ff2ad3853d62cf9413b212706748d22e1dc98953cb017f9f059a2a349def (-0x8101d8481fabd8fdc3efc74d93e9586758cee5f54e5dadc8de5652de1c4542569af7d0d6f34d56e3af6eab116a42308) 0x64c4d329b0950c91c0bd2820388ee80fa3bd3f451fa23f9b2623b0c8dddc85c94406fca223570fca5f74a28cc0c66eb (-0xa53e07413ca2e16e019b6a878636a3350d78bc63fa9b655f6129d6c9697959aa2fbb5d60549afd2421cb30613fb5871) (-0x1d29eda838d22f3c2643bcabb379ec3d6eec966c0b397c95be57b90c46c98b82a19a9c5fb659e2f59dda0a10e1165b8) (-0x99815635ae02fc30340525b14c63e1f539836f45fec61b5f93e534126ad77dbbb9af28286ecda516726018e4254ee4c) 0xc6dd1c915884e4b43485d455f6806d5b9c32565b2f1e50e3f25b2882d11374a7c1fe34920e341567cc5373f94cec643;
  Dbl2 0xed6022f4cc06faa52af2b7540ea7a2f70b48e1027979bdcaaf0e79d7bb7da49687fb5f003f25d83a1d5cca0e14fc41e 0xbc149344afb913210af7893410d01191ed64c85681fb28afc80f7821f63881915f1c56bc9b679bac2a605aafdb2d1f9 0x3f18d242bf5d6e1f8d175960cb5e0ba703cb24e602cae083f8f49f2b24df081cb262f11dd154e77d68497e06f58554c5 0x4fb14748ccef9c4bbba6d7206e81db575032eca8ab2739404bc14045229c726801d621a35b4645cdaeeaba8b1d54060 (-0x326856194c9814f565f674f0113b14803be4525541680de2df09e4ca0b7fe6ec4256430741fd66950be49c73a97b917) (-0xd69bb21f1fb3d29904ccb6e81ec393a17ca0bb89cca64fa78bffd474286e9f9998c574d825dc1fde8cc7e71ed53216f) 0x3056aa1ad5b7ba101270c1bfe12c3d02615f1c258b88e2848d75c94e043d69620869f85fa47b1b9aa8da42324cf50cc (-0x31e2a43f75c56df517a31d53837ba0a94de2e8edb76aa09c09e9e8225d0a67f1cf1e78b277b36a52683f3bc40769e59);
  Dbl2 0x194cce0b0919bf309062d7d768b07c7bc36bd8f0f1f83249761f50efe83c685c63ed0271f92c59f7c3d03b4679781c99 0x1f1367257103eb6026cee6ae30bef47f8fc666657cd6e691e7fa9157630388298c5435a06af08689a8fe6564a619a7f 0x42a3e3b957ea8780f43a790ccacaf8598517c70e8f1449290973fb27476cf3995a32145816de9d1a51c3ca5140ab1261 0xb923741ec82206bf59f111766c87d87553b16fbf635110d95ce9d395fda240d531a5083c7e28857cebd51a483fd3fc (-0x187848d8e756b1009cd13bf6054fd677adb2a170fc8d958bdb2aca641c81f1ddb2a85c41e9956b0d3ab9152b16259650) (-0x3c77f60be800d6a92874ec2aef7a3a173ece497899dad84062441ca953af8ce6d93f019ad97760b3800c29d9b905f93) 0xfa3686b9c7916778a41f1ec8ace33626e3b009a69103203f96a41600c45f5d9c2d31f00d8707fbcefffc1120633bce2 (-0x25a2b84d9d2b482d2736ea1e9cfe6a6b9471a06d79241a0a6a8f358f415431a0a91e6d2465793199f6f11d1bcd020c5);
  Add2 0x11e5c1b2b5841552e258f47b88ef261579b8ea27f00cc4b4e8b6c4b1831866cdc343960df18ec83c5413457d3f0642da 0x107cd994f14f05b4cc32310b3dfdcaf51c79a1e8e751a6f22f9d32c3094f7e4c010fed76be19518d3b3d3db54a9b341c (-0xa0a01f2d2f23f5977dfa492981bdc67cd5e875e7ed8042b3da6fbb4957a794d946cf49099462dab8ce7ef4461ed7270) (-0x9952256cef22e3e59f074d15f6e1006c4594304130f0ef7a0d5d115f73c89ac695d76ebd33ea080bd4f9019a6da3a01) (-0x1dd3994b0efd5da88e68b92ed9849a73ef0909069572130bdcde3ba32982112f822f3f07cb48809c4c6615d8351efad) (-0x16b209246287bc80243af4e5118a8bf71e130ac02a2beaf149b486752a45f50cbb4bf3b89427005c7d0461dc81ece5bb) (-0x7591fa380b066f8f5bbb36bb6d11d0da7140b50fe65253c55c70a30b884c557ec58d0c4f4913de49faff44a28deab0d) (-0xb97c4f776933aa9ab400d004b710460bec169c9367fdaf9e0e07aa15d2dcaeea331722e17e2e5fafcf16979149dc962)].
Definition tE11953 : Z * Z * Z * Z :=
  (0x3ea4f00b3c9f358f8f98ae091503bd248c4cfb60ec2175a3c78cca18297e55ad8065045c1e6c5e3090e3752921a224a, 0xbec2ca32825ce0838f98761b9627c515cd839109c640aa66a894a95f47d79c11184cc2f9981bd8dbafe7fd1e2bf8ee9, 0xbdbd0aeaeb29924446bcf4925c5b3152564aee1dd5f81e5a641adeb6970881ccdc542b844a01e77340451c36040d726, 0x132970e88958efb7e4aa89a55c0d5382a937937f71496709b34e3bd14ac9a0509a7e75fbaf098347d50852cd31701d5a).
(** a point of order 262069: psi multiplies it by 88066 *)
Definition tA262069 : Z * Z * Z * Z :=
  (0x57268c583bcc458015f5a0e7b801ec984265d002e72c01502e44e7d340053d1c5d874a03575ea0bcf32a1f736d73476, 0x692e78214ecedb1637314e1efaa8213c4ff54aee926bc02783da17ac74e44b12ee0af1dd6f5696d3806f4e34848f91, 0xde2519ea3414e0a31c5fca9c4d846a027044d685a036f7594adf49cb8b901c4cab34802534dae5f9756ee615ebc5411, 0x6cd1b242f15d4da7320ac1450309023cd7ee7e4cf3f41a20f8b3115d8f8fcaccae6b34d37bada542b43a6efa6efcbaa).
Definition chain_A262069 : list step2 := [
  Dbl2 0x190b287a6de570ae74afdf046187ec0257fdae5f9da00b54635124d7b8596088754216fc5d851958acaec96af87ac01f 0xefb31a39d4a44498d69d274396a32b9d94a06486becb03cbc9a6129414abbd3991828e0b2ff86e29c19185808a3e4ea 0xf80aaf7034350b4d4168334dda18158095f429df6349dc667b9d11466dab9b4d2138a3c8e4f2492b0954a9f3e4ba3a7 0x1c94bc400d9b7fc659cc7568d7e3023c5c5535f38510b6ab591193f105a2fa468c7125c468b1a810be7b8c556ccd8fb4 (-0xf7cd7c358f6d27dac64e62c1c3eb3f6dc73223e7d5288498227b5b0bd41a55dc52564fc3a96241eb4a1a10b6da27de4) (-0x1cdb0b457e9000333f470e3a2793498907bfa8efa8a39a2a89a20f619dbffcbea885e900ca106ed1151728a3e6aaae11) (-0xd5033c3d82fdb5afb1e93eb9a812ee4be8de91e1c827d0f43d66c7f79d90799dd42b40ec241ef1efdb8d11717b9c97a) 0xd06b3d58221057dbd6cb929fa3c7b4a45b9829b70d5693bf79855bc2ee80f25ba13d8adda7a840e64c926b807ecb590;
  Add2 0xc44cc881fab0c32309df9562e80283a6ed638a080f7d7b0010e3f6e6291eb6ab78f66fe50daf5a3bd8d823760410f9d 0xeaeb06d401ed24b42257c49906b9b8f2c5114b9b09f3a0677f77ae278b3c49d798229145dbdc0f74a763c3ed02349c 0x28eee0d8028346d54a400efd0dd87f385f8fa1b8b19aa396ab291aa4eead5c36f840e67ce7c06ba3703cf2214f665b0 (-0x76c8e5489b5e6babf440bad7bb12e426cac8c468bcd498b60e474a5fff15f079710e60d0cbe096d6cf84c66f326fb52) (-0x5c189304463d01a2c097d9b1f32ac7d89f549ee3917ec71880dbb046ef1e4d6f547455d12f13604050409a4d385f561) (-0xddab10adf21a348e54e2cbc03857d32987a88cd04a9bd62098c1ac8c23098cf62dc0227f07e6596eebc9956f5c4476) 0x3374da8fe042181576db206eddb424a83aa2b1244a08fa71459c44bea9b78828a8dd64d87edb41a2f48d2f434640cea 0xaccb7eaca3ca665755582aeeef7e2807eefa0245855f5ecd4a35e40942edc17fcf1e0aad5dd3c42b32243ac348e36e;
  Dbl2 0xdb5536b29604da966e8453637f658ede6e10259784a557d6318fac805485d20b2c6cbd9050e12fcaa67312b2166007c 0xec925f1895d3593a5eeb0593292f5be61bc3f591b651d9c0ef5b284f0303bec3ef65956f13432a616ebbba2ee5e39cd 0x20a8f1ed61fbfeb9846684b37bd06b5a61986d8c5986feb28dc2dd9877b85c2fbf360eede35e626169e43b78cb8f9f15 (-0x18998d9b92380c49e4216181c6f675a667dda8a154c788e71cd318d4637cc8d25179cf478931b4cf3a95f49fe84ae3c) 0x12e3b5f6e1116204aa8057741a9ce6783ecaedf1a768201f8f260f6632e24325d8480795de63cb181292d359dcec61d (-0xf96bd7fd5421cd58b53d62d435cf921e9636ea70b5e6075773c96442bc642e2048d57a07aa0e022484fdacdd06ba142) 0xa9390be1b8d72e64f97175058a3908f792eed853105cbf1c748d88ce536649f9364b3452869e8d5ea8413a9a279c32e 0x4f3424320e8d6f6c7528ef2d1b7d680fd82790a05c534273600f44c0e76917f5820de9e6037047f53aae541c63f548f;
  Add2 0x316ca756103393a5acc49b468d2442ab9b037c48dcfdbc269ba6d89938deccebe1e4ced3d670f4e7bf7f1e1ebd9b51a 0x4a3d55d6f21a834744dc59a0ff9d10cd354db72f9a67c6ffed190be563cdff1af36526b407babe3dd6718c6fcf958de 0xb00e6a0139f66b27676f7b438740c7549f9dae1a412ec75667bc8a32552d80fda31830768a30d90572e8e9bce790d (-0x44ee89fef3c481eff907ef33f5772666df585e0a3dd24a7f1f9496dec2bd9a8924bbad57f97bc87502d68c3ba752c6f) 0x760274f7713b77dd554ff4b5a4fc1c3693911f68f597964abe5da688b0f55b8f6fcde33d30bd24999b71751fe22a37 (-0x11a345fa3702ec6f13c80032bbc2ce1dd730d395fc097c8b9ef0bb63735e7175f16b24208ef0b0e9a746d45c6ee2715) 0xda60b02738cca93b498033f04bfceb9d9ab6c51efc9ec5062a49c10ea43823efdce340f29e0f12acd787bf89d71a3b (-0xcf0bb2447becf29747d83f1784dbef0fce4aefacb9dad882f6bdf5dbf7ded70c578527bfbcfc184ce2eee0dde91018);
  Dbl2 0x48a0bce208bba6ca67fe750dffb9273d06f7429719d123311e3f025f8f8da45ffcb92192dc7fef640cd93c06095a6e6 0xde2cffba1d587f3dee1bf426dbbfb29f32095cf85692145c12590279079653d98568ab231b3fefeaa36c4571e62d2ec (-0x2feee056fd32cff76f482a9d434dbd121c1a1ca7bcd123c4be4b689fd6d2451d3f3007165b86e816991b643f5d36f339) (-0x47d39bf37e32bd5ef8977827a05b2f85b8f786840b9cdb7c0ac70ce69d5d72e56fd0732b7027a5f119ce18a8e0759b8) 0x69f643d56e918f1217e56986803af818fcd20d18e064066660f00e8fbd4d56d54fb562ec03eff5e5df8127e14c47bdc (-0x4d90b143fd78789f4aed0f0219ff919471e6b3173d05a43fbe26358ece2fd12310e0be0810d97d8c1c3fdfc541cfb15) (-0x9dafae772c44bbadb7baddc91048aabbebf620277e4868878333f975f0e100c225aa27a4178973cdd36e28dfd81d0b9) (-0x92cf571225b46881d7119cfff4d435b9a434692ac6f9dbc6a2d7b4869bb8af06daaccda3d5dfd757c3055438a50a808);
  Add2 0xb6793cc827346a6545ccd7de62da3ec8bce5c5b1265b8c697976fdbdece7b5e1133c1247e15c44d16a7764fd4057a85 0xff126a98f2b12ac3146d87b2a792f60653b8427170cbb87c557d5e745036a6a7a7ae221b0f8dfcf9ef32829583fb18e 0xd0cb4fba1431f3cbe7554c1f3021877d04622cf6500a66945816ecb3b55a779e597e816793fa6e9d437b961f007ac9f (-0x46e71b0246d682047fbd5d44b939c788a2a308879602dabeb768af607370c7c8eaacdba053983fad91a30423cb37cbd) 0x4c589a5aab2adf2e3a4b5533626a41c72d8f1553106de8cd85879682c826ea287951d0e142c75bd57765f65d072e69f (-0xdfbb94d750eef0cff78594e42142cade5a3b36da718909b456e888d3d6224b135b56b8e846f153844bc48317ddd2bee) 0x7519ca526fdfa60d4195bf4c29c7ba6a7d66d220be69c88e4316e215dcb5764a0189276dcec5c01092392d1ccce7e8 0x842bab12f216e348bde0dd816987ba0493f37be891c26930981fde2d7fc05034b5ae49a385f5a3c49362675aa72c293;
  Dbl2 0x8dffb1d41cdc43a6a4fcb9c81f0acd8d88fdf641ee3cf3e85dfd95998a8de9c8d196951bf35e98fdd7eb7cfdf0c2e9c 0x3277b7914503c0a9c5d2b924ce3beedfd63f04b4655ec28bd7cf07db85770aeca13d958e359568d29718170851735da 0x3cc78a900e2e893e9aea893faa3133e77a86ac1c8eb39adaf8e840f00f6b38d54a6c94140ccf8a91b6953603a30f59c8 (-0x226d1ce8b76eb9003ea65908cff4b038b0b5dc2d906fee66405e087bb6eb930aa5ae6962b29feb25e2f1cb428cb4a338) (-0x2a574a4a9fea9e6634553b76dce6b410878fe3f1c1daf7665a2266a5fada958890c95d1c02c4477619abe523a7bb063) (-0x2272b320f47853b6f2d549a86726c6da7e45e6a707de29b8f642239d5aa0b77be2c3058edeb1d1bfb1d74ec423adc2d) 0x411fb0cc06797efd59f30df8723d8dc0bb9c4aa890ac7820729b507eb353ada890fd905c0fec96a2e8fa0a9fc1ab638 0x9633efa8d873d67fb389766f17aa12df622b98e0d9b6df0f049082fa8401e415f4ee101da412eb135875c9cdffe5c7;
  Add2 0x92e0e5fa20a1b6b69259c197d564ff70c0c2209ce81c5684ef431380bf67259c5f119b7791339c670963fd17ebb0398 0x14080d578e06e1d6a29ea157c61cf466d74d24137ca89e758d652147ac305ade2335edff1fe1b6e7191a0a7a42a1b830 0xaf4fefa0cbf1ba2c4042667a704d537567a77612b7da45bd6feb72352ceed00c3623d2766327a838c7b93249fc5b8e7 (-0x1319f8a5e84e8d94e27735a95a08a50aae7564f179f7c8ff8280455f925eaa572688e04c53b3256540ce8b064dcf7b16) 0xc309d862d97e8be009293f5aa5f1611b9f82a877443712de7e789559c82c44b416333c69d22e45d107ae4bc2290d0e8 (-0xe24932fcb944736631b57fe41225165dc2b3c90e0605f867472c58c649d941cd7f096264b359fca7c9691b0cb9574ec) 0x11c7baf9391c39b080cd31de96d1519a44a02be5955e9885bf9059dd8bfcbcc8d86c9c4738c972224522a0f9ad128d5 (-0xe963df78ba6088bdd69c3db8dc899e982ba694cb0cea6d83ad660c2429bbf0642bce9de35daafa8c6cd74c2628f05d3);
  Dbl2 0xe722479e11be4f31c6e80ef0d14644c7f9133b036a925b92f68d8df48ffbfb9b6bc82c206b3987489a0bc6c25e3878b 0x69e918f3e285056c2a0f7ac36d37197851841c252675ad14aa0b3f51be46ce201d5ef80231bfa180d3b975f595af992 0x123cc6018d37a68c5353b4b615df06067adcfa65d64f4b63aade60b01a9ca97302703f7e0dec7055cc38ca2c631fd051 (-0xe729687b9d8a4e09231d69b5b78d191ce4b3aa9877d02ea509697c844965cdece1f9887251dd30ea5ee7e6722915c2) (-0x6570a676a49ecc80399a479f111902fb212de6897a12b139d5cfeeabf4381de2273818be5ce85c70d530c2139e37eee) (-0x75abcae6cc9a3d698636aeb41e190495d1dfdfb1eedc36d7134419ef3fbbc0d981662ca6a9057f2cc1b5c851457c9a5) 0x3c0170a595a5c159bbd19279db9e5e3160b1cdba7f494ab3bc0f5a81c0272c66499b9054dbab044ed86f337237a8c6e 0x92117dbf3c0538814cfaf31dc306cfa4f003b13b4dac69068588aeb3ca6615daedd84e578dede5f3a492cdf35b0adaa;
  Add2 0x1114ce4f546535e49ee7edd186b257c1dc14806ec92bd7da8f1e6d584e42ce97b5427e115acaf81a5b0df899904c2ad7 0x680d543b208d45321e0d4052477669a241429352a9d8c501ed4ba104bf1fe615f727f8076d3a9435bc7e7623fd45b8c (-0x1cd01456d0653af12690a797bfb5d574349a59eb3d3d354799851404f07a542837e19022431e5423e80e34489fd8223) (-0x129751ad7dc1471a041c698c1a85184d5dedd123a306f4569a2fd33939b4d26d9a97398373dbac2b1505f1a0d27da408) (-0x997fff06da9df62d87eb283f09f537c3c0077126c7883e8baa0dd69ebb2535891ce7388d52c357c5f7dbffb2767d837) (-0x88b255d5b82db3df4f583a76d828b8d9ac16ef63dda61e8c568124fb2bb802f071e99040876157a249dae32d3d3bafa) (-0x95a310f3c571638432c0108ee43ef2f46ce1bbf382b60e282d9d4e477b6e025a1a02b1fcb7840a942260480770f1df7) (-0x4566dcef2be15777a435907878b9c31c5ba8e7e8dfaaa4414714b94177d090dcd17e565431ab0ea6a24b3d2a50be694);
  Dbl2 0xbb9528fa6c802f07a92ee6a35f64e415d2d779598456bdb84b62f227a413e9ccef5994e73919bdea4014ebf570ef28f 0x2b8a6ce853c8a13e58354929d91c1d164f662f5ff733aa672dcc26d1a1c86265507a3d190e3774e6f75be1e7dd2bf9f 0x40dd8f0cb2ec94f7f801b71b4c683416c5e554771c6e356c64893e3bc1b24610aaca086beaa27060dd652ad645707129 0x425d752671696c5831c21a35eabd2727302503514410ce18e0a1785f87dca556eef13fe63e1c83e075ceaaaa02f5b76 (-0x5003c229850e3ddf0564e346bf432415f1353fc4d6e0daff61e3a6ace30a4a74f304cb3fc2a4f7fc6a63cee170c5a44) (-0x2742ac578f9dd47e44cae6c48f6abf86492450b4c69fd84ccc58c9f28a9c466f2ebe9baeafd04e9c088a9cf24626576) 0x5edfed56bd82ce03e3a1fd7173c4122f04801d7d130a3545703302f93821aaf8a30569dc4e3a7c1da9bab4862438a72 (-0x1f22eea26b1633e7f78dbd3c528a4de2d4e0eab315ebb66cbfa54aa7ec69d10db52a13705c88fb3843ae65298c8d3ec);
  Add2 0x28c996a05724b968147b2b092642f387daac09351894843570c1847c5901382bcbbb70e28f3f074383995ea205b1e0b 0x9122943267d66a7a7bb805efe1596090a900fe06157e9b08685d02d54eae10fca64ba69e1e4527e15fd570a32d7c9ff 0x4a6ed645e8870200033ea5f5948fa9962fed8c4995b91660296ac7432949f30a63878186d9adee02820fc1410a85e23 (-0x49553eb26d75407adbbc7aec93a35aa7f742d170eeea95602ad46aeb1ab8893069ccc1dde23204bf02d10adb48d2179) 0x2ea0e536bc0636c9519608cbd48e87f581628a0ca867b96f39521096f3f1c682fa462ad492307aeb89a5aa38cbc2bee (-0x1c749a0071492105c79c4e8f225ec87af21824be0a67d82d1a5d0c6d1e002c44e9f39d34e5d603aa9d26e4a11e4f4bb) (-0x1beaa3136fd8b7d27d14a7ef164cba526da2e5efac6a90978c0afedcac898b6fa708f9bb2f9a91b4149e134826a3971) 0x46fc5b06ed0ec03bc3479ce90ad3433f2dc23f469e3b4aa6486a1754142161dabfe04dc4af9e92d41dec9e82694a1e4;
  Dbl2 0x13b68c056b0f7af9d5a0034ddd305c5337e52c4eb7bcbcf5614111f208e95891058fd54191597d447bf41539e4dca793 0x9da56ae1007f15e5e6ef50da74c2209d457fd80b2c4a4089065e93d28e7f9d34310984b759c5d3b9b3ab14fe8ef442 0x4e352b625ac79434f64f9f987c696bd5ec6a86ffa3434e3c3f6c802cfacf5cbde311e9fdf2cc85ffa0a81c555e8925c (-0x7fa7721aa4807f8852385a05620e12789c7edeba1340115e403f24e3dd0f9f133cd9eaaa16dd7d0395f4306a0fddde98) (-0xeedeb53bf37eaf69ff5ce4997b7230fd7c3f8f9a822947d6661da9db647617f19b795e63d89906dde6fe2e2073f7cce) (-0xef03c2bdbf36f21977d99a6f02ac4089ffb2267d50a8dd3dd9a0aebd43932d3ae8f60cee167be0f491954ab6139cb8) (-0xc70b99198e5ccd78aa21280341d300493823865da251b6490d2ae559fea9ec106a003ba2722a4aaa74d30faa9514462) (-0x7bd198b41adaf9d5c86fd05d2b718d1a3c759b32fe77b23dc9a57a1feea7ab5de581c744b9af04c766a86393fbde913);
  Add2 0x152d1f42c0393d74061d7e63905a2eea39522cf35aeeb45356ee60e495ea9ec6c998fb7a8c4d53a35d6309f72b27c58f 0xcc5ce7f2eef164bb6107485415eaa1baa492e0991f17d2d5f67bb8b1293bed0a98776f3aed998475dbbf4d82b438033 0x4e1dcbf93d57b02e3a7d15316c25882902faf758190bb806da9a3223367d11c8693576ec0be26ebbb248b9f3dd429c4 (-0xca7333c260e98e8f64136905a4965269896f854ef171016313bb8b25d4991e5ea6504dadc1193b49f381e7edd9cc32f) (-0xaf895180e1c26e46ea1d948201d4eaa1bdd3fbfce2fa436ba7ed0dd2324a1eb1b86173411af2fb51108d9511b594208) (-0x14cd78eb1f2792918ab2d1df577105cad0de740355f74c65a003d8de5c94c731db9c6f15230bf2c340975b8193a7ad72) 0x7311c4640bd12c7ec3b3c30f33a47dd9c4c66d45f7810e96feb15cfe483e3b3e1628864df9a9f4703d96475e6d75811 (-0xb4cda1d16a097a7dd7ceeb198c5aaba0ccc379b6ab263775ca1dce007cd3786324de8afbc693cba60d8abd579570f41);
  Dbl2 0x138dd5b152123b75aa96ba934ed11443a9926704f07c790b42c68ad1d4a23ff79e1d0318693013424bdb32a1e50d9c45 0x617634716787ffb6e1cca1f46836a43b3522bdfc993665bf54708f8710c97cdd18e727b43cd10e515bbe2cfbe137b16 0x84f6142adaa1c976c377858329f30fa7258984fb040186c2c62317b9abdafbc0d2440cb90f63b6b5791219c91d06672 0x1ee65b1e9f0da9511e39862eb8ac5ef4a246566c1f73c246f40bee41dec0adac7c86cf8eb0f895e524082b469cad2a5c (-0xd46e579809f45bf556c4ffbafe512772c4bfbffe5463d66f7a291b262a9992bf5396210713a83dad0be2a2e879f23fd) (-0x9292febf8f4e878252c51d5677a81ad6f0e74f6e0968730a23eab4ffa3ad925eba84263e0ac7984b60d06907513131d) 0x2a74af938e7f36b5d38008d91b5ce4aa3f1ed9560c342cba1d2ec2d9859395dbba051a5a7d48d2928104c8fb51618c6 0x69c6e61cbf94bbbeb6656b6a5d82de1f1274fb28a6f3325a7042cce1a94e1b3cc3bfa136a3847701be9b00ad7f469b6;
  Add2 0x12efbceda2992cc24f81ca4873974bc349856a833f7e2bf01c81cfd1b99257c5ebd120403ebdaad9384c37bf3e0a2c8e 0x1462fa91882af6bbd8a434e0f8d0d50a4b4f7aa54bc82efd9a42d543adcde893f059bc55541ee8154f2ced595fab0201 (-0xbda4cf71ccd36d57ac800c23075ad9d6e54629c46efb9868c5f65a2763be6214de7bd91bb62a93e67f084fa6acacf9) (-0xbc3e8f4b302b005218d92505212c7685bcfbaba29e05ca3208c5fa614a5d583df20d090e90c7d83899ff0d386b0ed61) 0x231626db4abcfa7ed81683d21a1815022613a1470f0c44b09f81db3fe3e3326c36dabefeef599d9bc427e1dd59576a5 (-0x1db103a390e8ddcf6c28cf2def6e2443de7fcf4450537fb8b4efef68a2d4af0914f791e87e240f51a00510ccc44b444b) (-0x12863947217fb0d04202dcce0d608e68234b2d373ea68bd232fc7408df984650afd8d9ca34b6b98d0c85f7f0a329036b) 0x84a0344780f0446797012c98bf85c8f32d9d8ce77019f6d5402fa274d6f78dd91b18eebae97b3bdbcf64d87998858bc;
  Dbl2 0x16a71fdc8d04b58351e481766c495b66317605553ecfd9ba7bd6ac9dcf38b407c0e9d9315b50a9a0174bd823619ea858 0x151eadd30945eb213ee5c83fb67a1c96b6df5596c180bd8fc78cbe38305be5572fe6eec94c13a0361f8d79c480f991fc 0x20d40f03a27eca3643f3b8fedda2d0f4d252a8dc236a1f86760f1d53fc2d4bdb30f8c9a4d96b205230018b04ad2ca4d9 (-0x2f16a2cb95f8b6e0f1ff9c51a6231f4cc81e3b0b243233b6aac7a2636c32adf3447dfa5097eb58c911b8168c1fd34f0) (-0x29499d704b246d0a8480de63e8d2de1d67aeae4f618c0f421cc518c1c69cd2580489f9d758aacba10e18baa19981bc6) (-0x24cbc2d7d5f19ce3c0498b051b092bc63bdb9a80aae9bb328a6aed816547c261e6939b1c94204f088853258d3e7e1cfb) 0x69f0f55ea5838f783394dbd43e7c40cf9d64e458081defca5c90cca2a0858345cfac3790b6057b25e41946df67f66a6 (-0xec46171e452eeacda9effceab4dc6525aa769dd79e28ea8c817761845ace2cc4a41f8ca2c1dc2c106012bd6b66e6fe4);
  Add2 0x1453e4968974252a7ba2e1ab0be1cb363b285bc1fc903cbf85187d323e590804df8307ef943f07b01e33d9eefa0f606a 0xf22c30e8e7f99df0b24ffcf0e1be2f4b89b6f1b58cdcd06ab5173602afa10d84c9aacd8d0a9efe90696af2b6465e63c 0x890a84b88249b57b61385e67a6eb81e1f004d0885efc688dacf37d1ed34e4f9642bbefd2eb7cbdf7b3af7a409eb1846 (-0x84ac6ad790e488e4b29ee6bc2fe6c5a2d10f07a504683a1b866cd2793a2bfcf80bd2d73fc97368ea05d95b68767040b) (-0x7149e13800d7aa4931e6905a34967cc7ce55c370bf5d84924e6ce22a98396aa8b0689484321e3ed63473bc9b048135e) (-0x17a9dfcb88ca27674b972954288411313b02cae4d8b1d87101fa86f77a64c306f01ea4af7c65d9c8642049baa4da810c) 0x136bd6ee0a45cb3684d600d6e50671946faf26fd0d3c77e64a3c9894288ab038a92edbeb2cc97f2e8e302c484592f8e0 0x6b1d39ad0958c7df6130ccf63ee4e3e7a5f8238b286fb4bc818cc1ea2293aa52e5a083a97655f6239ec4c5a3fcb985;
  Dbl2 0x12611afb602cc40f99f22ce50d0ac39e866e9046adc0a0b1f5e855c6563057d333ad1731425e1895f6c0dcd0c03c7906 0x174d44b7b8e835ca428656b9953fe248e044e87d810139dd25d0e151cb3c962691cbd63ce7db476f4c8b3b1f4f276f0a (-0x45319d7ab5102e758e759c4aa8a6df0d24197769008f9a72cbbc6f87df8ae0dd5437a0af45e44db3ecceef71c4489cac) 0x35b37d8e8c3fd6bf47b412c2411ffa80085e6c2c3d0cae6649b789228c93c5232a63d243873dc56d3dac17a9194824b4 0x7e3de83e23ca80639201f639f9968546a40ee696613741bfe51c629afbd277d258e89ad6fae02dfe447d2e1e91dd08c (-0x20f04da7172f7b510ac8e0050c289c6d06ca3d796290e5b3670a790ebe297c263b023d71e133143bb1f3ab0e696d284b) (-0x1328ee75d13e06df3a790b1928b45c1adbbbbd313076edcabd0231551ff03543c9cb60f5290a3962f9bcf7d87ac5ba30) (-0x33d7564f5b810ec982f0790799ea6bbe2705a01f2b3c15676e2054d436aca52ca3a97bb8deb1cead45322256f244e25);
  Add2 0xeb98684cf4d0e8a314cf54374393ff2d4bd6d863c54158fac8ca8b94fe0a45cd858dea03a78f6eba92913041804d2d0 0xfdc2a382cffc2bd8e194ca8c763b069ca1d4f91bef5039f053093d9d0a6b4a2e905dc1c9af1d75c77a6f084e624fd41 0x659866d0468f2b4db4e97d5c855b446bc24bc63a63f378e92481b6cf6b9f2cb1fa192a46e06d2f8980a359aa6cd440a (-0x7c3b9bbe201aeb813fe14d95fa1bf405b5358e5a06c4b4264305b88442d1aacfe858f59fcd5f9cdb2ade9f4fc655a9b) 0x155d5a94d7e43a9ae0ba964625b64ea78c3d77ecf15917c586e32faa56e3d75b8fa467b2d89f01fb5eb22ab267b71fb (-0x11f61664da77cfcd4a8537f1844942e2297275ccb054a793ada52ca7991c4d4f5516b8dae848ecc8a818a546bdccf761) (-0x851ce86c2890837176fef752317c42d67e3c8006fefb91ec18693f244555b75e37555469c0c6b0f75eb3b1c0e8640e0) 0x747d50739767757f2635dc0f7c52a9de532a0015bfc224181e61e14400a2f4cee32bccc1864ca92f0c9d149d26921e;
  Dbl2 0x78c0090c3e70557f6d6bb2059a621ed29287db5013ce5268912ea311496db79d7dbcb4b7afdbfd8e8ef6c8778549065 0x2816f699d0c0dc7042122360ebffcd110c38151831b02bc4d19550f2043b88c65ecb7046412d59b1b684eaf6272e153 0x31bfa1017348ba73bfd17bd69fd2815d52cff64b504cc9c44e5961dae6f3d69c6a0e812d8fa7e2be2c42563971f4c2a9 0xe53ce9d2a92cdd2f8ba656c8d38b01a771d795409edaded9bba512425522f1b01bc62dba7f887a748002aec7ad3c6a4 (-0x1f2e5ad518b9cdec13f25f839d1d8a76c4c73d9e3d4f778dc849f04f0f8e821677eee1a282351a25657884528662794) (-0x1744fed4b9126379688d5cb985f9f6f53dd024adea75f6e196b01e09ecb9ee96e9cabbb1e772e2a37832fe25c35b4b4) 0xf98dc6594c6c0029c5e1ee0c80a7fe7d77f0dfa6b2ac7e45dd43f8f1021f2fccf30da91385fef618ecd56637fd6c51 0x4c353be09041f7f20c951f903dea9025e15b3983ebb1b46bcdc48515b479191cf416740213dbabee47c05e226edab0;
  Dbl2 0xb1ce59634e8ac786a4bb3f94a26e94e99105f305b7760d7a51bef5248c85879e9f0963c21875c003186390eaa4d7ba1 0x190e0ab44ccd2c02806f375ba71365c74f96210564be2f476835560e311ce24cf3633634274ebc157da88fc18d79a574 0xea4371730c034b08bb815ea2cca498524b7113a51611558c3a55c2d76e263964c5caddbece5014965c20331723ff046 0x290c52f0a362c3e5b89a0ad67eda450982a765b0eb9369051faa246110325a08a0cdab19873891638e8cc008989d0dc 0x13641eba8235a95280a64d863cc4ee27e8e80440b072483e675dbc358c992461fc3eb7d1287f6b7e80c2de96d5d30b62 (-0x156a13def68f2fa98942e6b0a23f4160611164f4f70919427d2778abb7ed0752ad5e70da52df54822b53e53ad6397005) 0x146cd960f89f2fdf0dd96c6e80bd685bfbe5782777a0f601b8ca5d6f56a3804b0960c60ffccf6fca90a64a4bd4ee6e3e 0xa7e079f7eb7143f5fafd98087941d0f967e917d6aa2dc7655ae58a461c041468682e5370be743b7718fbf1ba238f374;
  Add2 0xb9acd1aa281b9dc7694aa5f7e261a2ec4495901252748c2f16c59ac146310db5ae94abecc0626f6ffd02f79989a5a24 0x4cafee250c64611dd35f0037ede2ade974620b7c26cec23bbbe5ce8a923c9cf47ce7fef0609639438937b7b4d136353 (-0x5d9469fd30adea1f068d144d01bc497204d45fd4e4ca2e0cc4f4ab6e3d6f48f6cd79ef8156007c898956ddce2771265) (-0x57c92190f39bd7ad9b94c9a34803e6c5642cc20e64dc515066e983369b9ad64fd9ea9fa477012917219dedffbacd52c) (-0x44b9aa5cdc15727ac22f49093fc2fd93ed851ce1d778815a9515c16e37f76bdb6a64797ce1f0f81230f65a88e720ccb) (-0x4471fdd11c8a513d1b39e5d309419e703bfa8f0bd3cd7d51b24cc798ea7763a7267084d9759e95ed87e5f6e0ddd5e84) (-0x5bfbaa7b640933ed50b9859770cdf0e4f89e5cd522d164f15b9aa8c3c0112dbae6e31596bfc1c831b4ba35b971f5606) 0x13889f84cf27759391768045f411e8cb7756fb68ff00794accee0ba9823ed08d351d3100d88ce1cdc0d00cff37041e1;
  Dbl2 0x122dbc2330fe0c9893c01c474e8a9ba89ee0f0ece6d333010d36db791b850b7ff5b9d47a6040c33e7f30a0584242e28e 0x1603d42ad6981ae0763fed171cdf385525e65da382b0c70fe3b4552d39eff8d207193f8518b7d9bd7018e3824f700119 0x536b7c683bf467689dfbec2b7f1ff23467befbc833fa44fe4160fd6530fe22e33c638c78ca3f31736c8a90e8faf017 (-0x1c32699fda93f225a1c427b2dc16f8e8900e66c28b65410524357a8452f0ac9019773fa0a6adb7c2494cabf0ec8e5052) 0x5edfb95769f6fcd7cd474d289d19d620d3e2c8ddb8fcd12d20c1fd002acef7546adc48cc3ecfbddacf9834345003f09 (-0x1ec7a3824a86911eb06f830687c3b3343b86a2d0533aa1a81e53b74d1fea669357d82f5ecbaacffc2720f09c8b0c7427) 0x6d759f0b39f937ae86a923f472f7ffcaa8652a05d805e0e41c92cb0d92b7b1b3674e61a95b88fb2ecd34a9bf686c739 (-0x8fe50314a33c9e1b85ad501760329a6b2fb5f399845da042fc7fb043ecba1f1477a44d48d29f28f96dc25b654959b4c);
  Add2 0x19b9e5f1b4a274bed7160e1fdbdfb5ce0bebdd9da325afcd4f8dcf68f6796d7288adf4657efea303d79aca648d5be9b 0x103b27b1c00d71f9757980d1e4828cef6b42fd9ff0837fb4334c4aac619d6a404eff0375790e277f9924c50b7a722488 0x18424d6e3f886b6447541bcde280b66f118682b5d97bdb6167a23ffcdb473ac6deebbde9324bf3e762c46c4a35b9cdc (-0x221f9964b0fcbeefde896ac2c858b3106c390261ff2f41364e3a34e4768638dddba3e5c9296f4d92c144ec57d0936cf) 0xa08144d35a730459fc367b6249f14a678a191b31ef480e76ca2e93a15b1544a402e014b4e11cbcda8a1c1afb4290926 (-0x201d769b3bedfcf935890a5814ac0866a1a2c7000449180643640e06ccb833c973f61133efe04e20322a87b4a24922b) (-0x8d639b2491c721684536cffd29108fd6b393493fc25686574d81bfd234a2f5bff7279902d71fad363e0d3111c807ef3) 0x2c19082eedf398abc1a03ebcbecbd5cc9de838da70680a4ce1b893be522b618b26ae41cb3170accc8b2edcfe5d9afb2;
  Dbl2 0xb08206df19d64728d8148e1b07ca5f748e7d0f5f20f830255e248bdac45dfbed60eff934faf5708883e0fffa2ad868f 0x198003a8b433896b0df1560e23a4a936f43edf12a7817ccd7b41190cf0abaf7558302f17bd33f442c1b76d8ad1b8f1ce 0x1b84579b42b727d4bfb0408ff3e9dbcb69c4ae9f1660d0f991ccd9524a02795da630357d0796169339f24bd3aefa3d96 (-0x1b23ff7929d39a4eeb75e729aef255faf206a3c986178fa8d0328418f9545908ebc4e0152afc3c145dcfa25999ba74) 0x145361d4b2351b4377b0b01b315f41e9232c530c20c27a443b2b2f8c75afb6a762a26097a379d4297875e6c1aba51b25 (-0x15a2c13dc8c2eaaf8756c970be19b5c412d56e613f2442753be340b30bee60f1a37b73960b80a9296807756f10b1b481) 0x1688be23507ed96ef55d9dbbcb96e6d9eb3a039441d4d0bb229f327caf75633777af0c94036de314da58a85ac9b728c6 0x5d3b1ee7ee05c9f113290bce341f373692335571bee6b1cfac22c95c26784f20ef0961e98683a9dae4d8b26d3a6f65a;
  Dbl2 0x6d64b186a9e2360c6e21043289d24a5f5d96dec427a941caa03e3651c5507f0b58072eb932623725f956572956491d7 0x5411f8fa48ffb67da040f5de195ae7d95a02bc38193a265bbe0e4e11ee7ac363a708d12ffd2abf59aa88a711e8f7d65 (-0x42be010c2aada983889f419f578fc776740481d21166f6f7deed0978f0553249ec46ec5fe0f5d1b2c3ffbcfe8a4eb0e5) 0x115a15e64fd2190f0d81bf28a71e0309c6715ade779f4d847a38972fc55b059191b4f05a978e989916dd0c9e2bc267d2 (-0xbc658f3a2f42770c44811aa165116b8f1301fc7600c335f54cceea01c71ee43448b26c02237b7905c6b1706e0430bc) (-0x2c3538838302b7a8f11d25d3f1c56cbc84c762134b655791c9c6c864c3e5642365117acf4ac5d30de5568489a1776f6) (-0x700eb53ea25a1d9e781959f39450def3b409531757be0435a9703a2707740bd263f529be61ee62756fed5efcf5a4ccd) (-0x1ee8d836b7c8e7baa27488c82fee2320f0787cb795628a4e4cdc99c9ed1410d469daa0d6c6936cb2e355ec9bfc2f11e);
  Add2 0xfcc1cb816e8dd3d76948b47efad7ff01e7bd1dbce2cfc18fa5c1e05931e44fecbc8ba6b5b4ead2c4701cd069c30ef09 0x46c65a1ffbbf002978c401b8ece2a6e92a11ab77170f9fd41428c4c8934608842285e4a1b3106333e480b4cf2d8ffcd 0x1e1f3dbcf92e3719a7c70fa55327562eaf86005181e251ba08e7d4866e0cbef6d892aa7d673b8380034d03e6825e796 (-0x4e13362697f21f598c2ad7330aa0e62b319fa695012b69f03adf05d4d0a05b1d77930b4efe4e5a30219c17ae3a9d5d1) (-0x8d823256eb2740d684a020a693e6a2b2d17b8e29f6c64269d4477bf292cf6750a49dba68095879b4ef97e9eb26e578a) (-0x55fd7ba328a368495cc8eba869af29b32275d61a6d5f09adf29107f9defc399261ac88a791ffb5765cf869a5c9f3e54) 0x3e45e418aed60bf8d4ad9047df770ef7987abf181808f73afa523f9dabdcbddaa5312c3d53bde2b3a727ee703df768f 0x336b84c764713bb04ebd31dcb12b7debe3266ebdfd12ae7961931e38d568149f85e0bb313699a15d8952db5e749ca5b;
  Dbl2 0x14f9422c6a5224a01a265b9b9a67e123071c438e2294ff4b6b9aa5226de340dda80dd5f268f65e11b440de49fa143a5 0x12206421131a19e524fa8316277701e144be718384386c83b8d5adec120ce9195f744543f841a805bfc1588603abeaba (-0x11f4b10e4f4e6e774980451adeea218e7c27c0f16b438fdb2ccc1b483c6b012a1534f2f7320bd80c77169dbafe94aba3) 0x3f5807d2fa734b76e0ba39d2796105a7f7a3657f5d5da4bd91eb44ee12ed8677eb2e79693aa415a594d554bbb3fabb4 0xc91b9752d272d5202522bc0418e7167b994585960be7a8f834ab8792114134851bf7b06aada5ec298b90e89c30fc19b (-0x1d3d69c1f2d296ca45f1b5e9e5af93046d03650622c9387ad112cbfdfd8b02139a2be6abf51de524170f4db2aab3caf) (-0x92d1682e78ca1ab899990343171fab96fa0355efb44aed27deb35e2a8cc0829369e06bc34daf17136725412de4fc560) (-0x440979476b4a9a72ee2bbcf5b8dea1b8acc53fd48cf6860483ecfb300c1d220f39dc97d22e2f884ba9c2387fcdc10a2);
  Dbl2 0x3876d4ea1f70bb770a1978e2d860dc33362c91cc80dcfc5bbf96a29d8b73bc72ca67f68a3c85f66bc041fccdf8f530a 0x8ea22bcf8bd4f4be47a95edf5a785f6765a9e93a80e2fe89284e497a91e6235dbd85eec0c01e353a242db0a13ea8dea 0x37ed756bbb6f6bd9b481efe6aef689744e0fd2e41efb8f928d3954e8132074ea9e4ec230a771b5418b99f719b87c535d (-0x59b22590de881ef62f32a910bf5feadfdd14918350be6826331d72482079813f915d8baf735ff7223bd8a05b81f21a4) 0x293be811906585834269f173e9a4b61bd68e2175145c8df7aa7e23e0f6e6a11e0f81c3fd2ff9761ecb8803f2261cf26 (-0x26b6a1f253385aa97037827b6fabbbcff88dc18bdb4494291f88bc402246d4101ef2ddd9f4a48048481798c8361111f) 0x85891447a68bcd3210079f70cee8af5d0115e1a068f0273dddd73e55c37dcae3d94561f003688ccdfe67c3bd6e7f83e (-0x31c2744d47ea0511d1dca7f0137cb38b8807c65aeeccf29be58ab80c3bd8a1d88430c707d787056248db39d0f2f9a6b)].
Definition chain_E262069 : list step2 := [
  Dbl2 0x190b287a6de570ae74afdf046187ec0257fdae5f9da00b54635124d7b8596088754216fc5d851958acaec96af87ac01f 0xefb31a39d4a44498d69d274396a32b9d94a06486becb03cbc9a6129414abbd3991828e0b2ff86e29c19185808a3e4ea 0xf80aaf7034350b4d4168334dda18158095f429df6349dc667b9d11466dab9b4d2138a3c8e4f2492b0954a9f3e4ba3a7 0x1c94bc400d9b7fc659cc7568d7e3023c5c5535f38510b6ab591193f105a2fa468c7125c468b1a810be7b8c556ccd8fb4 (-0xf7cd7c358f6d27dac64e62c1c3eb3f6dc73223e7d5288498227b5b0bd41a55dc52564fc3a96241eb4a1a10b6da27de4) (-0x1cdb0b457e9000333f470e3a2793498907bfa8efa8a39a2a89a20f619dbffcbea885e900ca106ed1151728a3e6aaae11) (-0xd5033c3d82fdb5afb1e93eb9a812ee4be8de91e1c827d0f43d66c7f79d90799dd42b40ec241ef1efdb8d11717b9c97a) 0xd06b3d58221057dbd6cb929fa3c7b4a45b9829b70d5693bf79855bc2ee80f25ba13d8adda7a840e64c926b807ecb590;
  Dbl2 0x1982c8e7e0762437f853d414afdc3aeca4656debc5724e269a064d1a22a0624e45a4c154a188d63fcca5c6c478d84797 0x15d6c98dd5973849e64838d5fcfc71a1a947a3e30c6c2a749195009711a63bce7c48577c37cc88b09e9bf3fdbcc04869 0x246bf0e8fb3b50cf47f17de15ede5950344b1beb118344e9661329dafe3f6679c7786f37926ccc30cbeb327b3131f78c 0x4e47ba0a8eee25ad729d70e64cb8e9ff4cc0daa3f8b1c96de033920919fe16f7fb3284a59971135df449da15f6fdee4e (-0x6af99d5bbeecad246e954497deac1ed577b91d2d6824e2313fb3e523ecd65b1dfac52f71c2ce53ae38fec8748a2564c) (-0x2ad9758e74c191ce2e0cf0849cd78fd1d71d481659e6ca4fb555b5a72653ac8bbaac81961f20fe503159c0829f574670) 0x1ad4df8f83d0ecbc5c00f7fb3dabb2ff06fce5634250170593c30cff91f528a1eb9e1c2aa272a5c2d9a65b274fbb247d 0x6956094e60aae01a3d4f0dd03dd144ea0d1a6a23fd233d900193db9f77ca34d449b1b4fe2615bfec66e90a5da43009e;
  Add2 0xfad93f21e8aa3ec56bb4dd10b10ab34e1e00eb064829e5296fb612bfb7e68226d035c432102a85bc4ccfbb7ae2597c8 0x6d86ba5b2fe266370e8a965b112ad560fe7f8a7713971a5fdc2d65afc897b4ee6c69672fe376c8b044d7fc48d6c0c42 (-0x74803bccc8d0a867ec08fcd681ee8091c9b6df19ecc34fc35b528045c38f014bf899d0823222407a7ab17528e65e066) (-0x7c84332dac0e5038b1db77175c6f298c14fbaf5631c76999531329d97a0add7c892106a1426a6cf7e8c80cca225903e) (-0x7a67e678d3850ec6367681d0c11d2344aeea749919273194c389c823db34b6232a0717c04c5a164b14b463d89e69f57) (-0x84115abc3f6c1474ee196ff04888e80b7400ea092436dc5b381b73112bdbbfc8aa9beb250078f16f8d2abc90cd207f3) (-0x170d8b70c5bb7b57c6e4df356a11cda7c551ee4457bb0ae38ec50f83e1ed85670f120a2c00437c30376999dd453e7ac) 0x83193e4177859b5ccb5cfae070a2ecdd058126226eff37cd539a718d489c016e8a8e76e5d9b2d2f1df56c53a650fd6e;
  Dbl2 0x355a788d9590ecb12209f0fe89228b5abbe940c8bed8a03546895c75eb31b9ed745413ce8104f7f7ba771370232f71f 0x36ccb33f65b020075cb9f2996ba58c36ccfbf756039292de6cb02bc17e0c0bc7339cd14ccbd155b2808e25b126971dc (-0x12200420417769c76b3f5bb4440f14ab8d7bb189be9145ab023d32aac1897256f985ce6d8afb1a131a638e5ffb89436f) (-0x5fc72becbae3c40850baa30b8ddfcf23470974c9b457bd2f7964ed40e18e4c0adcfeb1b51cc34574809d2858472f0c2c) 0x603ce87461d6239e4a24b71182d25c9d83ccd6b5476e31968bd4a6bfcbd479ccfb0c0262a2017e40fa23735f33c12 (-0xe0de0b652d8f3374a2d083d0e1cbb84f32444606c4e93ba9cf2b6a46459a7224b2d70462134914b16325b4033045ca) (-0x192ad5a7c87d9e97beda1c96c4d33cd9d5843bde1932f3606e0a5f37e74f8b27b67ee76b816f20741c1200126c3ab54) (-0x285fc91b1ba8bab6cf84483d326350ba5fa4c8bae609433f3f05c508e04a3233ccb8e55dd7b32ccafc1e85d2b0ef22a);
  Dbl2 0xc67e5632026a1f91c462dbdd78669a44d4b076d8fe21810098f638d154b3401f793ba292562f850d847474638d0dc67 0x7fb61bef38f06be7ed37b13146da01f2a8f13cd4427181e6893161de77383b87c2715ce230103d5bb1a594aaf36bfb3 0x20c781b4bfb248f00256706eb47c46f8c985e78761ee2bfd9b190a7fbf5db4416830ab21808c0521c1533faabe091d3d (-0xa3e9186f25351e1f9593f8f0bfd694dd702c4be50cbd18b799f25ff6f56b07e2391c993df2f8aefae2f1d69a9f0b6fa) (-0x377ea03a06d3d488090d1d9c8962c3c4aeeccfa7008b766c060295e8e439e1ab8aebd9d5820f6384a58cad0c36f18cd) (-0x79dad52500776c8649b780be4dc23f12ec955c88c60fcaeccb03547a1443060c19912a9e9518cce025f971bbf2b3312) (-0x129d4cd6273fcc6c2102d87316f6526f3f09d0b6d23489db6d103129207d278fe2c58608715f871805e86ee3cc4ba53) (-0x4ab08d7a2203d43547afc5a08ed18a62b31a00fe2f99bde1f8357a67d96b4ea9083d50936e61aa90cd7f1e99d284209);
  Add2 0x84313127975710ee94b07ce04e2af31911cfc062ab952bb3cdb6ba0bc2b0f9103cb88b30d3c7beedd2618a06a3024c5 0x54aa100de2812855cdbb28b926394cb5c5fa23027f9dfc455ff0b92624a19cbbd33a2f92c5a40c2ae42afb5e7b44388 0x33bf13b9d21ee4a8789d6ebc9db65b9e0caa6e43990c2439f3c87911295f3b55e5d4cde80c80e3fcabd5b4f2d0ef3c2 (-0x2295cd2f77948302f644d8338f036bbf85f7600340f2cd3feed0c12433246194ad8deeacda123bde27a07c5a8cc4906) (-0x18c59407a64823ba1d85c6c3f29a02534aa3c54710b2610fa41f81e7a98d0d305e31167ce8e485e1d01b3736f5e34d0) (-0x35cc80b5741be10a1406ef6960fdbfa583393ec6fb443eff8622335ee5d9c13757ac58999316697c565f51022029913) 0x62b4dc4954d771f84fbb16a8374fb2ee523c2143dd9c4930e32e6cbbc02ec2b049143917b822a367520259af506b980 0x24953a4c39d3bf59fbefc4f4b411f240bd880c403b92e79f0c4334cc3f6f750118f8ffaea904274e75fbb292c4f9f06;
  Dbl2 0x28cde90bab7dd684b05101d240d29f293a544e5482e375108889c741746d037f7b1dd85815a16ef82e5dac0d9cb5bd3 0x19e197eaf9821213774578d0b7d08a210c93fc538d95a93d597c29f13f8708c4a738925a6f2aee13f26d76b86b0aa257 (-0x314646cdc3384493df4790c1832742c83fa1ba6330e01cf488e61017fc1bcb388f10fbd268dbc7ce367870d8001c8060) (-0x53df9abdcaea8b78b741beb3032846d2b461fdeacbeb7030f7d35b11194772485914de9babf6b693a80f8835d3441e0) 0x19823cdeac91514e5e518f465841250edf369231b085ddc94fac9449e025c355c0c49ec64b52fe5afd69defc21f4346c (-0x513909c10afe01a3193b1d86b465b46255b290d0d34e6d06fe912ef5cb5f53ae1fed173030dea6ac2744b709cf0d033) (-0x4883c2d555587c0d716fb3a3e259158838e6a2f8795f3c6ac96d374aabc8271a56256359d50bb88c1812a4bbc68c02a) (-0x5c78ac38a2c04bf4df20ade5af4a835bd5f06604bbc006ebffa990c99c34ba75ce69e446351ada65efa956b12b6c7a5);
  Add2 0x12948b37dc5d5b554ca4bb57b9cd104c6a99f9ee9fe44019d39d9418eb56ccbcfe69f2318a2b0bbba93fddb952f503e3 0x5e2726651ac8a5d4431579105e4ac19189adf69c80fe4d9a0ee7055402ac64bba3be910103e0a9788259d5a4bf4d1d0 (-0x29b7e9f87f742667ec4e44c50186908bb675417d98ef8997a30c6adb9c24ee359edd69de070f5fa25045c766d869d29) (-0x86eacfa32d055d2e8ec934dd1f6fcad37706bc5cd958af20c4f05f5dcc9a3e2511306aaad3e0790b689af7df5fb4729) (-0xbf1b35b2bb5a7dba98c29815500b4c90041434f97223f5169d4f545a53dbb275c9403686bcee9275de4f30b51e60a4a) (-0x868be389369b2cd50db0e442bc97ea1bec102a756d9680589f1ee86197da1b9c8b3fddca94cd3bdc329e0a20edc7f5c) (-0x45b1e8047caffa419b83cabd5dab87e54f5c559c2d04a8b3e613844fa04a724789078b38160667db42506b5e8eea31e) 0x1298e514329ff499f582c3adad80df142743d9fab66076d76f898e6d8dd17be3f0244f41f8f68f021bb9e9ad531b5f3;
  Dbl2 0x1317501205c20ed2447fb4be29503e28002903109a35a9b890dee08ee949f7dcc409356d25873b647dec1ee32eb13b2d 0xce1ca72e880010cf89b261804ae3ba8ec201d9b45f455a478099d8dcf8d5a3942c7a7ad91a890228baf8f966dfe4b5c 0x1fd054a31fdc3136d1aa181aebc194ff1e3167f11bff2ecd834406ee434fe7f384815b5f0e41339d567489a6121c30a5 0x749e0e3b621e7ac9328abe7b9841efdf4ec1aae003564ce8b7f73d528a1684038ef062f8aa8d79878fd8483c0090446 (-0x7a25fa4f75e27af857a6a51c3658fc6bbf431f0a43377459816599e9ea1445c432e6260132c1a8ff80370dcbfd40e71) (-0x12ea2bbe6d116b883682a5b87cf672cfb75746b9d2ba02d735f22f3def16c88f0076779f74a0d5144168dcf5bf6fe81e) (-0x70601f3e168d018af75b70ac4f8519cc38f9ce4584c911ee58afae8aff68ea0a4672f3ace384dff0be8d71edd73604) (-0x7be200f2e35eba62ca424472b80184863cb13c654bf8a947f625be6edda538124a51cd8793a9fad69e26e2f23ce69df);
  Dbl2 0x12eabee4d37ce22d47a46c59ebd4fd6ee83a1f9ea66b8194d440b0e99bfa468068a3e27439431aba596cab55d45efc5a 0x19cd055bd1fa2473298dfce6d32f3d696cf0ef2541d1fc075ffd2fe191e9885b258249eb4a1727879047803ae1e11250 0xb23d73d2cefe9715abb8a41d66a7740e392a4bba1811a2f38b3f3c15eb4fedf603e7718f40d15f99232b05f567cf75c 0xb7a69b3ba35cdaa9c76c5d2745e45567ce25fb1bd052d8f481f99364fbbd25e08bd8a0dd88cd3ed20522c6054b8f1d0 0xbd67ad13bf7a44c1af22f58c60aec4d0dd1ae6e3611ec9e5209bdab4e27d479705f0080230687c850a93113e1d13b57 (-0x2589c3a66deefc30ec79a6d2a29da53041ffb9ad4d6180e1e4c96e110201208b2933682cc3c9d676d31e31db008f4397) 0x138b801977e37dfc46db29e5d81fad12989c3d086eef6fcf5cf4c0f51a8e6796198e8af82af1b339248eda9051e17263 0x1664f44a603b78452e9ae12a5d7ce136d803ef6263d8734cde7d5949649d1de90a6d3fc2fb5220202b32b370dd477eee;
  Dbl2 0x7180e146903d7288d07645d494dcf2994f0c724ca3b87daf43740c70af29c7e07b5e04835c8401a8170afe3aa2ceedf 0x138033bd8dac9f80054f1b4afc864b97e4665b516f32e89c7fbb8c6aa67114d3ff3758859eb2e0fc716eadb9c42c7ec7 (-0x61ade5952b8fca6ccaf2f020d7b0ae99da7702fec5c3df7306f1ae4792e7525ff534bfca162d5272c1bf8ff0b31774a6) (-0xb5f639bc7cfb092719928339b7f67fa4fb34d4c1c32eb1dedfc1e4b0e523b3836fbdab170820db571a0d5238a4c4b64) 0xcb047a316db023049a6612047c04a540eefc2a999aa3e1973954cb87013cbd8fb0aecfab8c6b916828f833a4dd49095 (-0xaa3c1434ce61e144b2e5b5e5e9085260aec4a3696462ffcad9ee370723b76c7ab2d0552df576542a38791dbf7836a17) (-0x15b5e25ffb237b7626d3ce1497349bcdab8e3ab089d09e6a20fc46fd11a7f04b99dfcf55d9dbf36f36adae967e7e8291) (-0xbdfcb717ac2c950f1b63b03150c713c3aa8e3ae9b98b0e18f2751541019f896508074b8d0a63ec728b2c5baf7b7f588);
  Dbl2 0x12e9436f2611fc7714ab9f0dfa9f3e92ad02d37b281e85700043fbd3de7231fec83969c73436b15223819a8009a7a1a5 0x112b077f9db96a71dbd18ce8a222424583bc59586fb26b6d190412e9fce3b0ca07df8e305cbf709b605a2ec98df8e3d7 0x4bd7a5e56460638bad2ff2c913a71d49b2574233118bd526e849df7e31ab0a72565e7e9b3152207a8cc40585fb9be160 0x356b49a252d5259193dc83dac9dca7221fc2f3073aa8a5a21c37079df384d9a2e4cc066d7907c460c9e55f8354522a52 (-0x26b1fa2c6f421e2c28b3049339096f40c3a7f11f0884e25511ea48e16e085d74708a88b17829820c18ecdee5d912cb8) (-0x18f87347330f859020bbf932c450e40772db9de2739800656031c1560cafcc2dd40f3d0d6e17e945bd67126678f80a1c) 0xdffabef05c0f97b0bbdc64c5335ab4e85bae48fd4634c5aae36273a41638abac6aa6980887ea0b89cc296d1e0fcd6c1 0xcb4a8957fc6b16ccf0adef72c1b56132b0abd245fb2b731571403e7d5eae031776d44ba66a84fec7f0af67d233ac1cc;
  Dbl2 0x139689b008e8b6f95a94e54b23ab1185e3569162bdf822fd7e4bbccc228ab23b406bcb1f0270dfca722b8b500809cc78 0x9453002f3d9e09d2ce0a36aa5cf2bc420acc5b1f9b41a358a18f57a144ba45a96763b6f56e7edfafc2b2404b52683fc 0x3347f7623394270c47685e6aff669fde2e1de0000bcdf3aabdfe8076dc49e248a75c589aff16ea51b80619bd5710131c (-0x65579e7aaf5d7aa790cfac112b781938904acddb0a69f2bd0f75cc8825f93de792f24c6bc289a025b28ed3b6a5800d88) (-0xb7341515c0b3ccffc6ff39c78333ea0163351fe3f01888e537e67a0f51535fe8dd9ed9022260d0eb767e60a4e24bf7d) (-0xdf7473b559de99c805d17d3c7b07e959ad777d9a5baf71eaa3adb02179f970b1c69b532f7dc5b2fab0ef45db782633a) (-0x3e1d433e4f71216abb6e82d3fabbf951cd0290c242e36227399cc552cedb3b704ef3674700d3a5fd97d4fa5601cf5e7) (-0x48e81e00b8be2be0d77557a49a5c9beefba3d649f5422d8b06cc66e47c3fab14e251d39d2ae19d6d2da46bb148eb4cd);
  Dbl2 0x106ed69184bc641e07f6676d59c692603d519b2d95241a1584e0c1500dbc3913112caa3310074dde68b04e59b648eb8f 0xfd22916c7199feeb09465ed52e3e14ff7057ef0776a21e7662ee3eb90a2b0df69b6a97151610b116e2d76a6d1465f63 0x2bc7d76bc104e7dc6f21396d3357eaf523953c38db9d28def2ed340b924aba7a566fa1e20e1c0d387a45c07b2576a20d (-0x1c879ee867b60e7b1e936bc1ae65e8e3725b53bc6a603125ce4985e7219a66c2ab5970dc2b3eef016b0c7b437ca6c12e) (-0xc25533ac9a010b8a16edadfff95bc20679658fd5bfd5c2fba8403fd9995b3335770a37dbc6916400af46125763fda6) (-0x13fee12b62ed79b460ce2a82831e822303225d5a96a00a7d8c727bf4ca7aed4721ed2055636d5ed8e3af191620be4dd3) (-0x3b092eb299a0f1205e7e8fddae987a93431989af39ecd98e90333d5db5370f105c342b6d1841262db512343afa19453) (-0x4b1529ace98f5d0199ad6f2d89932153dd23830a1a665448613f41068caeaef99623b6d371cb8cbd5a25770a2908de7);
  Dbl2 0x29c53f81a2eda036faf2d092c3ab1aebba92f46868badc50e11a41732c6c42317fd0f98723cf9e49a33eaeac10cd501 0x1279a6ad897e0e42cf8c8062669cecb1e3f3ccebdad53775a943a815a7488e1e214aa2e3959c3b65fb9f804ba1f5ac62 0x89acd980f9d78dda601abc9dc03d8a9fe061f63d5d154632dba4774c0eb6f5eef3a9252880c8b37c2603762bbb0fd0f (-0x1ecc7c9f7f3c48ecc85ddc0b5db05c002a9fb71354195f61358ae9196cba4f5cf060a686fe597d9e3a8bfc3b58752cc4) 0xcdd2e5cd95588f20166533e89b524bf9f3ba68c620dc440edac2f35b3cc060716c2fd461182117eead9e05e702e808a (-0x3b5a78e1a0e9bea35cced0865138b0ddcc65106630222c0518731e4772fb4b44bd568c01fe74560d196345090e97a31) 0xd24ccbf74e1801953ae6083f0f3c611b453148c1aeca5e9a260b0a959a171881fb6c08d6e9c2a4ac765688ae8dedf03 (-0x4c6589bc8eaa53a4dbb19f103256d14e2119370b5075715e0e2a2e7c499cc5bd4bf2c408749d2644e5e6a91069c6bf1);
  Dbl2 0x3c2a1115b16e6fa8f4ee606d2969d13530f3a4f6643f72648874e3e1334a98fa163a21e261cf897ed0dc9e75bcdff3 0xa5aa170b1bbb7626f768aa2b6e873a463b54b2adcc19d32359cde2cdfa1bbe29319974c3f3737757573943d10ea246e (-0x148d1fd145008cabfbb4590b1c9d203dc5db6076db0d753044ea24d0b6559942194572a7fd5156cbd6d6f83b3d93e66a) 0x126b56c7d1b3d7527075be7c428853c3fc09130f9d9725ab038eec467fa446f4d0c398a461cd859188a8354009f03eec 0x41eda16a0a1675392072d5174ecba7a612837aeb423ea1026b2d3287268d67c2040e724d9d165e6602a9c3bd4ba2969 (-0x2fe93676b0a575c99af89cfbf98b00429f99d2eafde3bd2bb10afb6c629d1c4095ad5a649ce6f7f958d81d2d1bea9b) (-0x3b8ee5f7957b854ddbba59d3804b537420907991b875df90b3d5a47a8de4f6039655ef93bbda5e10aec341f58912196) 0x3fe4e529e1e4203201e24102d91b3f1a5b2c8f1c73e6e2396f036d5ef87eaf92c4abea12a109702d02a2f49c6aec736;
  Dbl2 0x14f1e9d2949579763d6509d05f007bd6339f594eedb42d99f755809d04644bf7ff3626ee895c8dca8302a6dfc94d67ee 0x505b79e75aa212860cd1841aa1b0398c8cf644765f0b3b9eff0c554dd94a9fbf4c601fd1e4c9433ee8084ff8a5d50f0 (-0xa72092118880d5d3bb76e04893680c302662b26e28d8916c30ce02adf2a544cb92ef936a35e28f42a88c155c8a9b43) (-0xe16be8277af0def18a1e4888178c497e65ac0198b4ec43e997876916dc196e34e16a3846e2354647460209ddb17db10) (-0xfe66a921cfab189989c03ba1e02f36c72ed8100fbbd7816cdcfff09e09789db35e941c82eb794d0322c6b74598a1883) (-0x817271e188c471a3627f61bb36b943a94175e5a6eb092d4092ddae1c817e5b9aa0f005bf0ed1e81f8d73b22de8bceb2) (-0x430dcc8854c369e335580435f5591d7f70f84f8d5dbd6b6457426cef4551cb9c7bcb17b5070f93ec6174e804f5f7bec) 0x2993f11f98baae64577fbdd5934c7b15254ac855379c662a5345486549e3fa8502df193aa80ee8f7f2642f2753493bf;
  Dbl2 0x54c193b436dceaf16b8227685198f5bd74c54f6b693d38fb4c0086e1ec52fa0ba0df05e6549ac3a35d8edd49d6b958d 0x11e7ed2a5a964e59ca6251664c1cefeda1afecb63452eabc281623ac076524451e834f6cc8f1e5e09c4c731b5907415e 0x63fe59c3494fb477d44e451ab95521d009115c153d3fb29c83460578a6f8f58a7e0008948c9889ce2649ce4168e087b (-0x1fb91ab6e728b12dafc81097002479ecd303a27a716018ecb7a860bbf21250cc1ba96f4554a1d066e862239be8e2add4) 0xb4027186c78a32a0c0d5360e1e64792675d6ef2e182f1aca5cbd91ae2a625b14bc7fed3efdddc36c465abf5a5788717 (-0x74b90af484884e799722e8dec51720871a7a5e876221d6ecff0d4d74e9c72d052da98b6ce0d1b503f6561841014dbf2) 0x3c6f9f190daa3ee33551d656513dd12723757616229b2d05bcf6fdbe913f237eebcc9a944d2f60930a6027b1c0e6a30 0x8968c4f825afd977a6dd43707ef60c72bb9e6a8ae227792955b1726e979c7aa7689aa174e49f85a91bf81fe48585806;
  Add2 0x18259da9268f3dbc66dbdf49a7a06072e9b755212a1d48d73914885b7ae38d00003d06472df39561de57076575cd96c2 0x16422cd537fda59ab07cbfb7ed82697587a215bb408778c19a3b4698f8ef0299a17f98700c4ccd77ee2b4aeaa17bb941 (-0x4c601f12be00967f67134c0ed66f60f0ed0513eebd0cb1b7ea75bab6e192eeef6752ec8a1d9776e85e7117c110191e5) (-0x1bb2c2c6a6f7be2e5f3dce1226eb042975e64b5e3cb694c66a1db9ed764ed9607abfb9db9b0ab42434c1823b185b7296) (-0x35eb7d67a57e742830279e8d1105e6c3f406bceb35dfb821189a4c48931a7b3f7e6b7f6053b70dce54040ee26f9f86a) (-0x2956698f3e9c5ad6d245ebc4defa998376b6433a19df724bcd327f932b360b6bb8abcb3f4ddcbece0cf0cf2cbbd9833e) (-0x162690c6d1636f917ba28492392ed04abd689407426b0269e0a7efabcfdbd1cfa2d1e86ff1d9ad76d1b74a1fad9b6bf) (-0x45268a0445c250685ac1a5e1c79f065d2885845facb2ebf0a9d47cd3ff5958c4d22b3d158fd7822fd16ca152851f798);
  Dbl2 0x19cfb03191b77458ee7a9fd99c17f07c0248a48bd9e6b6dab0e7662d5488c5a8d1349c0e12a2775a4e99f03cbdb00831 0x12f77d5ea5b8e0cf864df9e5d4d67d9f01fdc3e573c387cccfbeef9e3d0a6e1f911a5c6babcc09be407fb3a4c7c4d5ab (-0xa64f5f9b1140086b372a82e59b69c9197d77a6f802dbddcdb515be0cdc96bca850956f72a2271bb0e115d37fde76f48) (-0x1818909e5a90633c59b0fb911f42fac5463d39a1f8830671ebe7185946e4ce78b0c5b3e5f459b0c2c13e9efa69a0f916) (-0xbc93533db10c3a05758bc7f29db9c38878a758e767d764a4f206bea155f203171471132d98d2fadc5fc68004063cc22) (-0x25a6f1ab489ffb58439b04c03a6bdc6b85ce4723447924b1320f1ac1dda8cb3568c5fbbaf156f52d0e9ab9e3e29bdb51) (-0x3d2e2c857048c0ebf990df367e466168ffb2dd4c314a034da7d4013e9101f9ab93eb0404c7fe8b947844519161dfa9) 0x3e6d5b65751ccee555ce589ac9a353c1078f6854f1b20b0f82efe72277c486a239c9d75a3ac0051e4ee613ffd2f8e9f].
Definition tE262069 : Z * Z * Z * Z :=
  (0x15af58053c9135a14ef09c25cb45a3133f702eaa7a98823a0dc5377640534b57a2ae3e9b7228385dea4c27fc549fd2fc, 0xede92ad6b00eb2b2647b15a753d7b1f46588ca4a9a6b2813f814f6ec03bdbe4e17db15fe753024169c31745d4043215, 0x96a1f1c90958381adde18ec59633d4e5b1e11ef20d11a2d586da5c3b746b4b7275c34b1c51c73da263acae8f47afa39, 0x7a2b79452086227202b57990cf85c0f117c6af77e2671967f537014ee18c93da84305c95acaf3ecb6ee2757db2e65a1).
(** a point of order 13: psi multiplies it by 7 *)
Definition tA13a : Z * Z * Z * Z :=
  (0xa0ffe73144b242fc7a300fae1f2ed7ee148109e774cb9bdfc2ddadfe6819260a083dd514f11b6d889b619a6be692b61, 0x6d13f4535d514401f08d7fbacc9a495562cd6e981a85e34021b233f4e1398565cd15a795a7ac21977a3a23fcaea20cf, 0x14bd2b73c694919079bbf4978dfb8b7e2efe11be4d5bcbc705ab32538d163bcfe7b832eef3e91985115c6ea2db0dfcce, 0xfd9a411e8b66e6fa740e4627ee271c03746c01b4bf5a167cf7a65dd97311af344d7381922585fe528b4cd8b6cd61fb3).
Definition chain_A13a : list step2 := [
  Dbl2 0x603955f894344d1748def6f1cca1c89518e9dc59af56a2236327d832bbff87f3c876ef536cd67953899099204627ad7 0x55a67958a88b659e3681b2a79e5b52785f2890b8d5dd77629a59504ddef8c78c14ef6906cd7c88049c1666d98527462 (-0x340a4ee73316751f956b10ef12d9cf47765b7a27e55decc37fe29800a3db32ae17e2d4c1609fa5cf945fa40c9a07778) 0xaae21d1ec9d3f2f00ecb38c772779e0dab2b787c93daedf645712915c5f808b4487d9ef7ecbb3216700286f30ab58 (-0x49f3e5f24052878f54a7f581b9523b5a7adea702186b591cad0db4d3c70951837cfb2f3b6665727732e53a13350d58) (-0x279de3f70cede97e07999cf2c3287cdbcd30df1ea83b6f91f921cfee6cf4d2fa926898a16bb78f69971036fb17bfe27) (-0xdab9e319c2934cb895ee0502714e1c858c25dcb2f24b3217ce80056d795aa87e2c0860ba23486d2618862b18261246) 0x4fe37d2d261e90c8f92e8c30b8b0c06ddb631506edb88e5221415e19d3e9e1e2fb6dbfd726278e20338915ead98826;
  Add2 0x3b3f46e60bf8413d9c01594781dbb9abd2051ea726873adb54b85966ba33501129eb165b7634fe3c415faa3ffa7c498 0x176140951dad7c2e6da19461da9a83124add7b7fca7643d806bab8224a2874edcb5b6a1988cd717a9cb14c66a6d8cbb 0x57ef5b17246715d7dcb87bd1dd581c9d282888ecfb196cf30e6c403b45dbf162c8358fb35af24afb16e82330c2513a (-0x4a510d85e8662a2c75846c8f7c553d1bb608461731326919934f1f36b283d1aaca70b1bacf61ea2c14498edee73ed4) (-0x71f77476a5173d0165da3a67676c175eaaecc8be522381da0279977ac8502b4352602db02f005e6ab7d45f5235961b) (-0x6a8940eb2489b3ffbeb6d7b0096b7278ffb4dbc578a56cdf5c899a76b6b1e29ffaf31bc88f60f3a194cab2311e0478) 0xaef4e70250353a628663d6c4853e6548950336d61d05c4e499f329dc4cdeada9b92adc643afd71c8cd7204b7abd28d 0x1930bb3a0c2e57e052c22ac362fad972d10d7f9c807e27b1249fe17cad3e4b2581e2c6b55d763530f3275660c7baeef;
  Dbl2 0x2c405e55f4d1468e1b8a8de6e0d8a8f2f8d185337350d36cdf1b2b7f3f1a7ec781739c48f10bb1bb6afff601ea6a229 0xa7dd7f58edbcef001ab47ad0dd69c32c11ec9e98ea66d66d77fc559a338eaec3591c2edda761a5d925a62664bc03a59 (-0x581a9a68bc4f314a20864c7945a612a86556a7ab1f6cb6d16cbed01f15c46d745ad4be252340d1ac16c82544a61b972) (-0x2e4730a30b13a851e35d31a81a7ae14b141c17bde7491ff2ba57350d8a73bc0bf1e25c55f1d56d0bf9397da21290236a) 0x3f05202ef19942f4c3ef0216ea39bf65c7dabf7d80f90c348e96c8bf802af36f007b893d39b287261bff0a0f97a3661 (-0x23b506bc66d4411a18e86f07945c96862469814f0087e4fa108c94a11b6f1c622a72eb6bf635d4aaae1105ad7a34546) 0x787e74441a49c4c01a9419afbcc2f60a95e73baa2dd349f243517461cf7f3b3a73911e41105b3196b9615e06a5bdf53 0x145e15234846485b383a94993ff211eaa0f7b5cc1c59dbdc4a4df925a719c7ec587f14177fe3ed20a23a419a3f598a7;
  Dbl2 0xb4a8042ae8e9e39815f7b4637ee4dbd87c0d6f7d0c568c07b885ec8e4f6e42e6983973ede59607eeb2195fb57a8b92f 0x15014da1457110d5d859a87ff97e3250f50bdc76654a7852e5b93322ea6ec419ba82955bdb220fc1d05cff65f0e23131 (-0x535646c5f4d994096669998e9e41b9a2b04235ee612bbc63258fe3d9d8dda1aeb977dcd574fb87568f660680dd6eafcb) 0x18b6df591c0b2d0b8a5c695f5d64fb4880a9f32fd97ecc7d1d5dccdab2d08e98b89c5200613f31cfc68800cf5e9df6f6 0xc108148b84678462f30c5bb772ea31a73107c0fb046b7dc334da73824350836fc28d34d787fb77ba0ff0dc26f57e62d (-0x123da6f1b7d00bc996917c604ef5b1a47662e88d1b34b01ba49a6817f48842ab9d1b04b993668d987c2d8f7eb43614ed) (-0xb17b2af7863dc3080b7c56bbcda486f74faf24c17cb58c95d355e214eb1861a644fe62231599dfb7538fa5985aadfe2) (-0x8b4710d915732072cfc654c50b704495358db263704fc66aa0a694a6cdd5c46a70d80616c122802dc1ef3a7a1f77090)].
Definition chain_E13a : list step2 := [
  Dbl2 0x603955f894344d1748def6f1cca1c89518e9dc59af56a2236327d832bbff87f3c876ef536cd67953899099204627ad7 0x55a67958a88b659e3681b2a79e5b52785f2890b8d5dd77629a59504ddef8c78c14ef6906cd7c88049c1666d98527462 (-0x340a4ee73316751f956b10ef12d9cf47765b7a27e55decc37fe29800a3db32ae17e2d4c1609fa5cf945fa40c9a07778) 0xaae21d1ec9d3f2f00ecb38c772779e0dab2b787c93daedf645712915c5f808b4487d9ef7ecbb3216700286f30ab58 (-0x49f3e5f24052878f54a7f581b9523b5a7adea702186b591cad0db4d3c70951837cfb2f3b6665727732e53a13350d58) (-0x279de3f70cede97e07999cf2c3287cdbcd30df1ea83b6f91f921cfee6cf4d2fa926898a16bb78f69971036fb17bfe27) (-0xdab9e319c2934cb895ee0502714e1c858c25dcb2f24b3217ce80056d795aa87e2c0860ba23486d2618862b18261246) 0x4fe37d2d261e90c8f92e8c30b8b0c06ddb631506edb88e5221415e19d3e9e1e2fb6dbfd726278e20338915ead98826;
  Add2 0x3b3f46e60bf8413d9c01594781dbb9abd2051ea726873adb54b85966ba33501129eb165b7634fe3c415faa3ffa7c498 0x176140951dad7c2e6da19461da9a83124add7b7fca7643d806bab8224a2874edcb5b6a1988cd717a9cb14c66a6d8cbb 0x57ef5b17246715d7dcb87bd1dd581c9d282888ecfb196cf30e6c403b45dbf162c8358fb35af24afb16e82330c2513a (-0x4a510d85e8662a2c75846c8f7c553d1bb608461731326919934f1f36b283d1aaca70b1bacf61ea2c14498edee73ed4) (-0x71f77476a5173d0165da3a67676c175eaaecc8be522381da0279977ac8502b4352602db02f005e6ab7d45f5235961b) (-0x6a8940eb2489b3ffbeb6d7b0096b7278ffb4dbc578a56cdf5c899a76b6b1e29ffaf31bc88f60f3a194cab2311e0478) 0xaef4e70250353a628663d6c4853e6548950336d61d05c4e499f329dc4cdeada9b92adc643afd71c8cd7204b7abd28d 0x1930bb3a0c2e57e052c22ac362fad972d10d7f9c807e27b1249fe17cad3e4b2581e2c6b55d763530f3275660c7baeef;
  Dbl2 0x2c405e55f4d1468e1b8a8de6e0d8a8f2f8d185337350d36cdf1b2b7f3f1a7ec781739c48f10bb1bb6afff601ea6a229 0xa7dd7f58edbcef001ab47ad0dd69c32c11ec9e98ea66d66d77fc559a338eaec3591c2edda761a5d925a62664bc03a59 (-0x581a9a68bc4f314a20864c7945a612a86556a7ab1f6cb6d16cbed01f15c46d745ad4be252340d1ac16c82544a61b972) (-0x2e4730a30b13a851e35d31a81a7ae14b141c17bde7491ff2ba57350d8a73bc0bf1e25c55f1d56d0bf9397da21290236a) 0x3f05202ef19942f4c3ef0216ea39bf65c7dabf7d80f90c348e96c8bf802af36f007b893d39b287261bff0a0f97a3661 (-0x23b506bc66d4411a18e86f07945c96862469814f0087e4fa108c94a11b6f1c622a72eb6bf635d4aaae1105ad7a34546) 0x787e74441a49c4c01a9419afbcc2f60a95e73baa2dd349f243517461cf7f3b3a73911e41105b3196b9615e06a5bdf53 0x145e15234846485b383a94993ff211eaa0f7b5cc1c59dbdc4a4df925a719c7ec587f14177fe3ed20a23a419a3f598a7;
  Add2 0xb4a8042ae8e9e39815f7b4637ee4dbd87c0d6f7d0c568c07b885ec8e4f6e42e6983973ede59607eeb2195fb57a8b92f 0x15014da1457110d5d859a87ff97e3250f50bdc76654a7852e5b93322ea6ec419ba82955bdb220fc1d05cff65f0e23131 (-0xb17b2af7863dc3080b7c56bbcda486f74faf24c17cb58c95d355e214eb1861a644fe62231599dfb7538fa5985aadfe3) (-0x8b4710d915732072cfc654c50b704495358db263704fc66aa0a694a6cdd5c46a70d80616c122802dc1ef3a7a1f77091) 0xc108148b84678462f30c5bb772ea31a73107c0fb046b7dc334da73824350836fc28d34d787fb77ba0ff0dc26f57e62d (-0x123da6f1b7d00bc996917c604ef5b1a47662e88d1b34b01ba49a6817f48842ab9d1b04b993668d987c2d8f7eb43614ed) 0x1 0x1].
Definition tE13a : Z * Z * Z * Z :=
  (0x182672b79db1f0a4aec0ef311b5842bc36f400ced5e4255e063f975ee380cc7512325397b70ab807010734266dd3d0f7, 0xa8523cf97b0116465255e5a03ea9d13a45b1f486e4c4d1dae475cf3fa5c51391600467825800e9bfa6cc519e3a3270, 0x1088581a3454b54acf653526e66f1c0b70536f3d984185d7a4ccb529203857bca81483dd17cdfe34fc7df84f62065cc5, 0xaf227174dea869072b427ab59d5daf69059b3f9edbb56c269c2a5e73b9615cce3e0a09ab9addb38ced70f10e701088e).
(** a point of order 13: psi multiplies it by 11 *)
Definition tA13b : Z * Z * Z * Z :=
  (0xa5b39e6d5c36a743d556ca9a6f0093e0a1c23ce2680ef33a4115661692ec07995100db65c70e4e398d439b1505f392b, 0xd08fd8e90291dd65b92946a4cc1f2032e8de85bdcf4971d756465668fbd86482f1e8774904b58d5311a88302691c338, 0x186da343084ae579b454c64874e83c0d62feb08cba84cd5aca3c8098aca0c7d6e12e7aeb2f2fa7108f601dc6a8c016ad, 0x195942da05c513ffa3efb576a9cf295241adc3f8099bc2b85e4b30862abc25096080b4eaa33477b6048f73e813947f0d).
Definition chain_A13b : list step2 := [
  Dbl2 0xe20f858e4ea9de02b674894d28d4277cd565fbce712d6711648633a700ac1ddef48ecb492d7461483f70b18f36ac343 0x28d437fae7a160c65fadcd5c87dde1bbfd66538a0ee967a7fd5012a5844761711e22211d34fe8d4fea964c0066b6207 0x1ccc8bf7dbe410d42c593780f3b8a7e39b2e0ff121aca786ddf64a49e59f60d808eb5e12a02fa2c5ed5116d0fdb238c7 0x1310e411f8f9a4111304093814180e6f447d0d09d91dd56f8c4d5c4c39aced21deaaaaf2d1027b24e873468b7e9557c (-0x76d18332f6fc3f96e14b3341aac9be83bf9678ae203eec27dc6fb8840b1f5a3976ec51e6826f471d4614a9d55718656) (-0x2c5df564304cba86e40d0d7cd1ad3da02d3709d80ef5e4d6bbbea1760acdc286286a31d8bb0637d9ec7d4970388052a) (-0x45ef50b517df45923214f56254de514a94e5bbec378e75569cf47aafafdfc3b097ab0dc2d441fffc632dfe94cb6504c) 0x9e01c47239fd44d580f3ce6793607ad876700981f90f4107c0d65428b8a38355bf6ea364a2e0eea3ae0c2b67297944;
  Add2 0x13054bc08bae0a24452e94b96a9a7fd0e92d596246e8aa1386da5cd63e299b2183fe3e84ef530f8347751cf51cd78bc4 0x15395cd0fc249965fbdcb757be77afe762a323ed0b54bf0335e8e639f05810c673f31fc89152069121f05e72fcdf2b7c 0x79971440108a3a8046ba72daff5a41f996c53cd6fedb5dd65823bf130f5f857b4dde7df079ce134e5295108b459c4f1 0x45cccb5d7beb09efe0ed9975b3e1d2d05472bd9f5f7790468e3946dad9e67ea33fee5e3d711a37e59adda13ea8f6ce5 0x368f6ecf9e2639dc0827b0915d7caacbde848842705531abb5bc9677bea76337ab2feddb630be9923a1c5172ff931ae (-0x1f0c6fd3d487058ff7035d6c7c7ef712319a95e1999caab3c32818e7459d69fc0efd27655025669c014cfe206ba19423) (-0xa6f7e64c4b7ecd6ddde6ea97ba78bb99862e919cd08fd3c6d91ae4571fda5c87ec3d9f110196d3e18c7ba71a6622ed) 0xbe9abe2847b17e74a5cc3a5b2c5235e74cf0f3f316e0adb0aabf534f21aed9e647058c85a2de32cdae845e8e044b1a7;
  Dbl2 0x1555645f2c1bf459a31bf3b3c93f683375fa190e4d4ab2467b0f8dfae42ec0d24b4a7e7cf813893ffbd272c748c03de2 0x1980ed7af07d415d233973caa44a07ebac47810b2a11bb5bf426f5803660ac11ca1dd5b01776f3798346411af4440d97 0x280a5ffbb01307531534ddabf7d51ee5ca92d631bff2fda44efabcfa357a9d17f542b9201510f2e21b3c2b380fba24f2 0x2168cf784623ed67d3a3547c73784f4f503e94aca3dd69ad3e37bf55a5b9a70e4aa09d94f85ec5ab340a6fe154762a04 0x782c823601ca583faec283ad27a73d0dec8ffe5eb8a66aa4aad05eb915d863e3a12439758516c23413222f72efec299 (-0x29d887e608741c76ce9357987d1dce2ec70a012aed3bd3ec1a3f42f0e520b3097aae15c94aad9433dda74181f63f7834) 0x237d00dec1d241ff37f450240c3a37401fcb260890a7b0c3c89115c9155fd842d7e059cc969f03800212e3ba5fed0f6 (-0x22c91f343fb2eb2f78b2829b371bb0fda162af42143edfbb6c2a73b16f39b194c142868015deec7b86472678733a252);
  Dbl2 0x74f6c42625efea7288136a64a86f7d048c08b4adc4d05fc013277db48fe20683e3c078e04675b905ad3f92c74c2003f 0x1b1cb866e52f6aeee374eff91be8e43407ed7644c4e5559f179ac2cb30d259b44c4c01c2095e8d19acc9260074fa88b 0x310c407c2e76b0d4c30b1da0bab65c7cd49bf324b0a59addb12ec2ff34dff764ac3cef4472e02f99190434ce2bbd1d7c (-0x29226f42171f27eb3efa1a94bee4ec21b7f173e9e336cbec30c79566a5276edfbe0b38409055498d4810436be2c5e208) (-0x1f1d2cd3df5823f5b80bf9e58d2ae776e026335cbf266f0962384dcc616afbb1956d88824846038bc9c70bb07d1aea7) (-0xf3e53032ae575feaa8701f940fe8ae02ef4d2c655c0f1b0443b32695d8b13ee288c63facf2416c783ce80c53cce59a) 0x88006a529c3a446f733691c93c289e29ed79a224ba52635b7defb7813a0d72c63b4bab57180e8382733a217a4aa0c7 (-0x22eb162e355c9be3f447a00b57e4f193870efcefdb38a9a1bfa9808c8a2b241c0abf85ccb9158b8311087e6098e3ead)].
Definition chain_E13b : list step2 := [
  Dbl2 0xe20f858e4ea9de02b674894d28d4277cd565fbce712d6711648633a700ac1ddef48ecb492d7461483f70b18f36ac343 0x28d437fae7a160c65fadcd5c87dde1bbfd66538a0ee967a7fd5012a5844761711e22211d34fe8d4fea964c0066b6207 0x1ccc8bf7dbe410d42c593780f3b8a7e39b2e0ff121aca786ddf64a49e59f60d808eb5e12a02fa2c5ed5116d0fdb238c7 0x1310e411f8f9a4111304093814180e6f447d0d09d91dd56f8c4d5c4c39aced21deaaaaf2d1027b24e873468b7e9557c (-0x76d18332f6fc3f96e14b3341aac9be83bf9678ae203eec27dc6fb8840b1f5a3976ec51e6826f471d4614a9d55718656) (-0x2c5df564304cba86e40d0d7cd1ad3da02d3709d80ef5e4d6bbbea1760acdc286286a31d8bb0637d9ec7d4970388052a) (-0x45ef50b517df45923214f56254de514a94e5bbec378e75569cf47aafafdfc3b097ab0dc2d441fffc632dfe94cb6504c) 0x9e01c47239fd44d580f3ce6793607ad876700981f90f4107c0d65428b8a38355bf6ea364a2e0eea3ae0c2b67297944;
  Dbl2 0x4e45367a6c36c4419c74c24980d3d591bd6f9a55fd5d3a27091f99bce1ed94394b551d05c7bc96ec37e11dc296cc881 0x12ac19514daa835995e1da81f5f9d1cba2ccbeb46a662888b613e50f98139aaf6210fdb6be021dbc2346f9b2f673c975 0x15be6861e68057d4318a89b07c8ba82e560f5fc685267e403eee4faee700c795cda51e79b2c34a3f491b733ef82a5758 0x197144770c1e9922a9a269fae0f8314bd290012c040790db8ed5be8f2ff844e75fe4e011cc0d434504ab996d3b331068 0xc7cc16d2cd4295ad5c3928d3561f1bdb0c998980f61175409c7ce1571a1889f41634956148695c905aa9bcb71bcf5cb (-0x70676140a95c4ddad527e376ad0ddccc53409cb4702db8a63ba18ee03b6e6f6f70024c0b084640a23f44f8b2fb3afad) 0x5177b0b833d012b885771c5929b6ba15af589e8a30c22f7c86011f028c289eaf4780a9bad621da166c1d52a3b91168 0x1c654403c189ae1a56ebf0849e5402fc63c5bffb402ff4a52a8222307c615bfdf273fcc489e9a9e270c15cd9f05bf0e;
  Add2 0x15a90a77e0a9168ac5b0175d3b1532fd4370b2367cfb4f969beb900b74a58637eed8c4913a79f453e41c88e8da5a1f3a 0x166b03e82174ead7c231d26bb134993eeaf230d78e2fbcf9b458b545e314ec4f6429b596180ae2dc860431edf87336f3 0x6a20b01e10f1b08f4edf8ecb027cfa1d3171597d10ab93799f61723f58d8c3371a80cafa2b836e3cfb378e54a4d7b92 0x235b2225446ef28fb521bcf374106f6949cd44e2236dfe26f2c01cf0764717d6635bbfaffae0083f9b8dbae2f114053 0x148cbc39f37bff25c39473a12b5d9f8a3f2c1bd3df22dc77b9f9a085453be149a3da74b2350427987181a4f5487ff6c (-0x2558af572e174d95e3543ea0643f1121eab0099fb0c84678e9da3069a11e77f916c8aadc8df2e89126e82e37d7a17323) 0x68e8dcb34e8f3b7e75ddc8ccec5953470db9127fb1640a4b463d6741ee996a328123acf6ba4c820942a226254d6f0e5 0x6a36f46083e03f379ee2eef61c8c24b129368855de19a4282eea716d646f8103289e1eecb3961b34c8decb5aa8d2bb2;
  Dbl2 0xdcd5240305d7baf08d324eb60b777adffdfc694b7623920f56c6129df93fc784bbaa6a05070db009bacf4f761d0e1eb 0x5a32d127d826c91c7027e34bb934cc8812bb56c3cd094dcbfa34164ab9035d977d6422bd2bbf971fbeb73ed023c38ab 0x1c404d652986f6783d8a0be5627bb76c77581efbd24c9bee72464309e46cb67c044ef94cf93c3bed8d772297c635e527 (-0x1b30a2bf779d434e4ddb8bfb6516fbd7392a643af895c25f1bb7dc7297aa689a4d1e04c0d3081ce098660e91e0ff97e8) (-0x61a7d5267aaa8e7ac2adf924f8648c7d0548dfb2870aeb53a3d5f3904aacebb26408a31ba87cfc648e6bace45a0ea51) (-0x5fbf778a1628fd8257f61dd2d229ea187cf8967367916a0999926ca61a3b0165efdf7ff7a7d65acaee8a0f0f3a9af85) (-0x2f9ff372af297c7ae21a26b31e81564419eb402ddd18628d56351aeb8686d1d3bf99490e148ee410a82a47b06f4d231) 0x37c68d772c7a2ee076ec28d7e9ef8cf71ee4d31ea5cb95e6221e4d89bc32af8dcd93d2ff52c489ddcea5575ef296f01;
  Add2 0x13054bc08bae0a24452e94b96a9a7fd0e92d596246e8aa1386da5cd63e299b2183fe3e84ef530f8347751cf51cd78bc4 0x15395cd0fc249965fbdcb757be77afe762a323ed0b54bf0335e8e639f05810c673f31fc89152069121f05e72fcdf2b7c 0x840692a4d54227572498e1847b01cdb32f2825f0cbe45b12c5b56d58815d2b43cca257e189e7808c6b5ccafcebfe7df (-0x78cdf2cacbc67484c4dea0e578706316f87e3653b7691d6a1c860c7447c85b4307172e4831c3fae813a6bd4f5b544c1) 0x368f6ecf9e2639dc0827b0915d7caacbde848842705531abb5bc9677bea76337ab2feddb630be9923a1c5172ff931ae (-0x1f0c6fd3d487058ff7035d6c7c7ef712319a95e1999caab3c32818e7459d69fc0efd27655025669c014cfe206ba19423) 0xa6f7e64c4b7ecd6ddde6ea97ba78bb99862e919cd08fd3c6d91ae4571fda5c87ec3d9f110196d3e18c7ba71a6622ef (-0xbe9abe2847b17e74a5cc3a5b2c5235e74cf0f3f316e0adb0aabf534f21aed9e647058c85a2de32cdae845e8e044b1a5)].
Definition tE13b : Z * Z * Z * Z :=
  (0x2c3b2521897c5427a3a18abf5815e15f6a4c77dc6f3436a82c042503d8e50624edbf321cef5a46fe93c11dd7e957d90, 0xf8ad37a9c62c5021a6208eae8984d743a66d2cf66f87e0c9dd3d0bf3b9b3ed2d953371c57d8e9e54a52189174151c2c, 0x3dc669a70e29eb89e0800495730e7130ec8ec5c0805bf8a4115a1652c1a7c80588ba70fccd5c33692b33c25fa0bdadf, 0x108d60842a9c8c6648d3df7ac795d22805946aba80e653ebd726967372b3cad322a3861a88e6d4742bd490b5dea8adeb).
(** a point of order 23: psi(psi(A)) = 22 A + 16 psi(A) *)
Definition tA23 : Z * Z * Z * Z :=
  (0xf8c8576749f6ef99687722be49c46ef60c4cad47bdd52f46911d6999fb40b3ed4954b2bc02f40e4bf94b36270b33dc3, 0x13aa0b4879311ad3f08faf86172bc2c8d745556e5850d92e75ad5ec3209ed783fa5d62ab4ff707126e148ba293b705a6, 0x1659ef01cf525dbaa8dd67cb2b44d3a75194f55c7b2e79a0f9d49c47d7b3d65dd75004ebff029f058978c51b00fab4af, 0xe5e5a5778ad0c48b8121d24675c6dc6fc4c7a7b1b230d00a3a034d1adf1401828c4f7b7d26851fe2361c0fabdf17948).
Definition chain_A23 : list step2 := [
  Dbl2 0x76fd4188f5fd514fd32b20d51d6763bf499af3637d5de0b010ea879cbcc184cbcdfe30e1c2ae7ceef98970a7af1798c 0x16efee14c55801e451065d7c1ab4493fc803d2377f853fcd28b712146e05b3717333a405183f082450963f2aeb00495c 0x4279175db92dd41af292a94f1eae18b43712ccec5c99c1d20c9bab72c482966cae78dd20737869c132ebeeae0f602eb (-0x16e638f735fbdf00dc0fd6f812849ef74aabaabed862c65b3c37b49b53baa2db67d500e2a3db60bd3a1444bb04a0466c) 0x121aebfd7f3a00f869a89f1b3efafcefa437ed7f1ac435a226c11a72adc49c7da0de896b011567fd2b7721168aed6027 (-0xd1e9438cd38fc7f0372eaec2f489f36af8fc90770e279beffd4bcf0328795515dc1b4d3da12810925436d27513c4fc4) 0x24d629c5b66ee5eea56df1cf9035d071c91ce604b76fe51bd17db0a8b92ba2a76e7eeed2e5c08bfe8e3b796e50750ed (-0xee0c482369b33273c0f89d5418b86f95de18f4d33654ecddcd3b60f95c35185a1e55d1fdd686db313770e6b9d2f0874);
  Dbl2 0x1756994e8c5af6140e6e76a362c1229cee9c0bed459eb2248fd2295f0cb2038fa36f7d69f03261a65860867086e22527 0x60b1aa5a93d2d47a0dc94d7df5ac5ba7b629080696d387e82d18d60af61bd0891958a665afe022b7202dc48f9999a58 0x38ac8775c4125de9427e5686aab9027fc90426c8ad8bbe43524bf42f9178016584b297e134bf76c5752e2c9a1a5a97d7 0x1d9226ff5e623a2fa433e024fb1370926d187348ec3fbded380af8521d04d2d0795a6e3b50636e6725cbb1cbc72ef5d8 (-0x138a8bd67d1d6559e2b68c2537f66b140c8e97114052e5b0ffbe3ae889ac0598cde8c6e11fc96e71a534cc853f33a923) (-0xad8fed1f092495ab4848226d5298fac7342f7ab3c52edde31ecc5ce8258dd71a7df979faa75d9612ea38d6e7539d9a9) (-0x1fe59bc30b1af11a8c4936e6cb57edd6af884ac41886316ddf8cf24c90ad38004bb117de7d538800c8fa967f701f393) 0xb4dbee4f75c0aed7d64579524d13d0f51118fe6a6b4349a4a234cb4a5f8f15d50f6a5c71845ede31d0833500cd9de65;
  Add2 0xd25b67ceaaffca4b8edcf616ded396af1540920b80594415b0118ab758435c15d8241332e911132739da719ae8c9184 0x19e8a4f2db6ac87dd215c01f15e9025abe49f35e2789b79c52795fd11b9d9697ae1f02bce9fa7717cb30ced3d9c6d3d1 0xbd9aa5902d79a1deb84fd89fd8a2adbb1020b6223cb8a30d9aed799eeaa2807cbbf8425a20670d1e708fc9625c2809a 0xaedb932328b4a5ddde1a7cfd2ad62bfd47bbe2680cba6c2f48106eeafc81857e0c06164a4267e771288956ada99dbbf 0x132aa7c36d298bfabc6837d480cb5209938f70a7fda3805c01aa1681f1a9ab559110a0705e4656eac122c1e0a92c8b18 (-0x1a32ba2ae39da8365fb44620767248ca01bc4ff50cae69339d6b1bd21bdcbe0b0884d476de8a2798a16741e766744a43) 0x205a3212dd32620fe03c30adacb8f4692af44a21c964e4e8904cf6bd49b72b2ee3938428f2259b1a39d21b320a00ed69 0xb5a0e3426972457bb131f085dba35c507a56e899b290993dbd3fed5752e1f2fff3545c09151ee14cd25941e44a89364;
  Dbl2 0x305cbda7f5d7e2a29a572ae540ecada8de5bf09d970a76713883e29a2c9485c298c567476e5b0921ed1056e43a6fb7 0x198a29bc0f19de032ed0451c00aac7c658f49a2b155a61abe713c4de779d3667f2d32a6d47ff09abf7883b1de2f6b4e3 (-0x66eee8716a2777e8d8ba899232f6fe8a9180e5bc4e061f81594f30bea5b9e23bcdf29ddc97d4cefce032de272f6efa14) 0xdaf02084a5c995664c67daa9362b0adfc65a16dd41304c81d9593a4e7223795ccfe4acb81bfa19b39eff64e5edbf390 0x1915075363a1b80613c192b5cb41122271168f346f6fd701e7828d092728c2a63a65bfbca5cb539c3613f0dfa6a1fcab (-0x5eff32bad93e1131a1d6bfb223d6e72ff283f95642c3d156324cc6ec200b1e68c862b47326004ecdb82f1d0553f628) (-0x200700e4f5e7782a5b757ce327bbd706aa6bfbc547115324adaefc8527ffb259064a7c2dbd2451dc63dace1d1461fef) (-0xb0220cd7a0894c1ec69f245f50087fa82d8e26ad3c32f7250e53ebb32b08a4ea9c5bbfadb7a59b2acc181895719edf2);
  Add2 0x16dd07bda66f0ed820e218280ea13064162ad16a57c46663c4ab7bc4d0923a4ec2aaff5749ee02f874365337c24dd5bc 0x1657264a3816e9248447c5d189988c6cf2159a71334389c5a7ad0540b8b8136550220f8458900e18b0cbb7eba921b258 (-0x9f637a1b488d8528e5fd45593ace6fab01a2b0b30efe07237543c5fd3279f62ae32f4c72ddc75883593509fd6fadf2d) 0xebc4a6fdfdca8cda0097db4f4412ee48c647c6c4168b76c8f27524934827fa9852f5b955500dfaac179698e5774f80d (-0xe8ba8b4108dee1968557d8030ad5d1b693a55c6b7ab41a6bd15269d845714e926171a92835ff30c4076b5733ffee83) (-0x2748c88b8db947884070f40fd1eab0e01cae23431d569219ef57e4716601f2077deaff62cccfe82e69d2d19ac2ce22b7) 0x4289655083ecf85472d893acd67b5e0053714a3293d07345f0679257b108e177ea0cddd9729876e6e622adc371a2cb5 0x1171cb55cbe7ea20ac5010e067437bbe3ad9f6d05cfd78fe97dce97e615f57bc217c75219fb90348adccae3a148568fd;
  Dbl2 0xa159b2e13c8882cf9c951700251c48068c030f36a6f2b74103bb199fa365fc1c9c7b2e349fa69818826d7824914d812 0x5c68ea4543f5a1bb23b82aa02216bf7c62f1021ffdfe4ec40322d6d2bd9c9877e43e14e604fd7af862e449039de752a (-0x2936a728cbf6eabfef9ff82f4ecd539c720f4d9c1cbc931f0a0844a44f0b0c807b4fe3c59c112ab54faf8af80f6e5ab4) (-0x3aba3b7cb2779f3dea2ac6c9b219cbb248cebb4d4f148aeacd8fe22d44d20bd1c1336df648a304b25da44760b5a85cb6) (-0x2a0c095d1be42187444005dd367321b970e2729676a62034bfe2ae48e70a0aaa09e8f5a4275913f47d2836f70fb3fbd) (-0x47ac4388a51eed360b0d1719b7d009d29b91101e6c9d6a35712992e4387c9207ca207a3f61f4006fffd42eb7cebdb54) (-0x5375eed2fce466960d67d1d6a383ddbee048ebfb4a981e8f238d096300a01889fa737466f5a3f5bb63d828b365b87e1) 0x55ca7d4cbc32ce11ba635f37b928f8c3ff229851a1b0d6282af9c9b63e825c4032660ca1edc3aafc517a4266c31697].
Definition tB23 : Z * Z * Z * Z :=
  (0x2d0a99d99a42cac87abef326e9636f99d0036042c660efd98561fc17042ff6a9ad720430c73269e7c8ca187c407822, 0x178c1525b03abc7fdc88557733c3d57e4b037f6bed2ee6468035b0ea87d14f67a8b147aaf6b7b301e590f631b87ace5a, 0x18e1ca3cb796edace7c3b3e3c9f475dcff19116070781da54f352f27b33f00080eb31946db82f54c3471c395e3dff23e, 0x43607d756904a9f246a3c4711bf4f1a8a69a0282e42fbeedf1e9f41b9bb49000dd9ae383fda3b2ad08422e510259321).
Definition tC23 : Z * Z * Z * Z :=
  (0x7ff8faf3b9b4d864600e34b4f278e8eea3eb497715193521723da50e81d4428d41bfc7f3688721d25fc42cf47c79097, 0x684113b99e90e912306b72353094d7e2701f976ddfa9a80cb08d5d9ed164e96cdfc0f5792242b5733b33e75e8891d27, 0x3a722e86a2d88dfa23e3feb1806d93012e256287856991e6d5c36591efd1fc6475bfb12b25160fa30863ae4ff04f5fc, 0xba2b792c0d2da5193098a91dbef3f10682ad109d86205bec3909dcf48bfb60bf5e70846deebae01969d3f05420e3163).
Definition chain_a23 : list step2 := [
  Dbl2 0x76fd4188f5fd514fd32b20d51d6763bf499af3637d5de0b010ea879cbcc184cbcdfe30e1c2ae7ceef98970a7af1798c 0x16efee14c55801e451065d7c1ab4493fc803d2377f853fcd28b712146e05b3717333a405183f082450963f2aeb00495c 0x4279175db92dd41af292a94f1eae18b43712ccec5c99c1d20c9bab72c482966cae78dd20737869c132ebeeae0f602eb (-0x16e638f735fbdf00dc0fd6f812849ef74aabaabed862c65b3c37b49b53baa2db67d500e2a3db60bd3a1444bb04a0466c) 0x121aebfd7f3a00f869a89f1b3efafcefa437ed7f1ac435a226c11a72adc49c7da0de896b011567fd2b7721168aed6027 (-0xd1e9438cd38fc7f0372eaec2f489f36af8fc90770e279beffd4bcf0328795515dc1b4d3da12810925436d27513c4fc4) 0x24d629c5b66ee5eea56df1cf9035d071c91ce604b76fe51bd17db0a8b92ba2a76e7eeed2e5c08bfe8e3b796e50750ed (-0xee0c482369b33273c0f89d5418b86f95de18f4d33654ecddcd3b60f95c35185a1e55d1fdd686db313770e6b9d2f0874);
  Dbl2 0x1756994e8c5af6140e6e76a362c1229cee9c0bed459eb2248fd2295f0cb2038fa36f7d69f03261a65860867086e22527 0x60b1aa5a93d2d47a0dc94d7df5ac5ba7b629080696d387e82d18d60af61bd0891958a665afe022b7202dc48f9999a58 0x38ac8775c4125de9427e5686aab9027fc90426c8ad8bbe43524bf42f9178016584b297e134bf76c5752e2c9a1a5a97d7 0x1d9226ff5e623a2fa433e024fb1370926d187348ec3fbded380af8521d04d2d0795a6e3b50636e6725cbb1cbc72ef5d8 (-0x138a8bd67d1d6559e2b68c2537f66b140c8e97114052e5b0ffbe3ae889ac0598cde8c6e11fc96e71a534cc853f33a923) (-0xad8fed1f092495ab4848226d5298fac7342f7ab3c52edde31ecc5ce8258dd71a7df979faa75d9612ea38d6e7539d9a9) (-0x1fe59bc30b1af11a8c4936e6cb57edd6af884ac41886316ddf8cf24c90ad38004bb117de7d538800c8fa967f701f393) 0xb4dbee4f75c0aed7d64579524d13d0f51118fe6a6b4349a4a234cb4a5f8f15d50f6a5c71845ede31d0833500cd9de65;
  Add2 0xd25b67ceaaffca4b8edcf616ded396af1540920b80594415b0118ab758435c15d8241332e911132739da719ae8c9184 0x19e8a4f2db6ac87dd215c01f15e9025abe49f35e2789b79c52795fd11b9d9697ae1f02bce9fa7717cb30ced3d9c6d3d1 0xbd9aa5902d79a1deb84fd89fd8a2adbb1020b6223cb8a30d9aed799eeaa2807cbbf8425a20670d1e708fc9625c2809a 0xaedb932328b4a5ddde1a7cfd2ad62bfd47bbe2680cba6c2f48106eeafc81857e0c06164a4267e771288956ada99dbbf 0x132aa7c36d298bfabc6837d480cb5209938f70a7fda3805c01aa1681f1a9ab559110a0705e4656eac122c1e0a92c8b18 (-0x1a32ba2ae39da8365fb44620767248ca01bc4ff50cae69339d6b1bd21bdcbe0b0884d476de8a2798a16741e766744a43) 0x205a3212dd32620fe03c30adacb8f4692af44a21c964e4e8904cf6bd49b72b2ee3938428f2259b1a39d21b320a00ed69 0xb5a0e3426972457bb131f085dba35c507a56e899b290993dbd3fed5752e1f2fff3545c09151ee14cd25941e44a89364;
  Dbl2 0x305cbda7f5d7e2a29a572ae540ecada8de5bf09d970a76713883e29a2c9485c298c567476e5b0921ed1056e43a6fb7 0x198a29bc0f19de032ed0451c00aac7c658f49a2b155a61abe713c4de779d3667f2d32a6d47ff09abf7883b1de2f6b4e3 (-0x66eee8716a2777e8d8ba899232f6fe8a9180e5bc4e061f81594f30bea5b9e23bcdf29ddc97d4cefce032de272f6efa14) 0xdaf02084a5c995664c67daa9362b0adfc65a16dd41304c81d9593a4e7223795ccfe4acb81bfa19b39eff64e5edbf390 0x1915075363a1b80613c192b5cb41122271168f346f6fd701e7828d092728c2a63a65bfbca5cb539c3613f0dfa6a1fcab (-0x5eff32bad93e1131a1d6bfb223d6e72ff283f95642c3d156324cc6ec200b1e68c862b47326004ecdb82f1d0553f628) (-0x200700e4f5e7782a5b757ce327bbd706aa6bfbc547115324adaefc8527ffb259064a7c2dbd2451dc63dace1d1461fef) (-0xb0220cd7a0894c1ec69f245f50087fa82d8e26ad3c32f7250e53ebb32b08a4ea9c5bbfadb7a59b2acc181895719edf2);
  Add2 0x16dd07bda66f0ed820e218280ea13064162ad16a57c46663c4ab7bc4d0923a4ec2aaff5749ee02f874365337c24dd5bc 0x1657264a3816e9248447c5d189988c6cf2159a71334389c5a7ad0540b8b8136550220f8458900e18b0cbb7eba921b258 (-0x9f637a1b488d8528e5fd45593ace6fab01a2b0b30efe07237543c5fd3279f62ae32f4c72ddc75883593509fd6fadf2d) 0xebc4a6fdfdca8cda0097db4f4412ee48c647c6c4168b76c8f27524934827fa9852f5b955500dfaac179698e5774f80d (-0xe8ba8b4108dee1968557d8030ad5d1b693a55c6b7ab41a6bd15269d845714e926171a92835ff30c4076b5733ffee83) (-0x2748c88b8db947884070f40fd1eab0e01cae23431d569219ef57e4716601f2077deaff62cccfe82e69d2d19ac2ce22b7) 0x4289655083ecf85472d893acd67b5e0053714a3293d07345f0679257b108e177ea0cddd9729876e6e622adc371a2cb5 0x1171cb55cbe7ea20ac5010e067437bbe3ad9f6d05cfd78fe97dce97e615f57bc217c75219fb90348adccae3a148568fd;
  Dbl2 0xa159b2e13c8882cf9c951700251c48068c030f36a6f2b74103bb199fa365fc1c9c7b2e349fa69818826d7824914d812 0x5c68ea4543f5a1bb23b82aa02216bf7c62f1021ffdfe4ec40322d6d2bd9c9877e43e14e604fd7af862e449039de752a (-0x2936a728cbf6eabfef9ff82f4ecd539c720f4d9c1cbc931f0a0844a44f0b0c807b4fe3c59c112ab54faf8af80f6e5ab4) (-0x3aba3b7cb2779f3dea2ac6c9b219cbb248cebb4d4f148aeacd8fe22d44d20bd1c1336df648a304b25da44760b5a85cb6) (-0x2a0c095d1be42187444005dd367321b970e2729676a62034bfe2ae48e70a0aaa09e8f5a4275913f47d2836f70fb3fbd) (-0x47ac4388a51eed360b0d1719b7d009d29b91101e6c9d6a35712992e4387c9207ca207a3f61f4006fffd42eb7cebdb54) (-0x5375eed2fce466960d67d1d6a383ddbee048ebfb4a981e8f238d096300a01889fa737466f5a3f5bb63d828b365b87e1) 0x55ca7d4cbc32ce11ba635f37b928f8c3ff229851a1b0d6282af9c9b63e825c4032660ca1edc3aafc517a4266c31697].
Definition ta23 : Z * Z * Z * Z :=
  (0xf8c8576749f6ef99687722be49c46ef60c4cad47bdd52f46911d6999fb40b3ed4954b2bc02f40e4bf94b36270b33dc3, 0x13aa0b4879311ad3f08faf86172bc2c8d745556e5850d92e75ad5ec3209ed783fa5d62ab4ff707126e148ba293b705a6, 0x3a722e86a2d88dfa23e3feb1806d93012e256287856991e6d5c36591efd1fc6475bfb12b25160fa30863ae4ff04f5fc, 0xba2b792c0d2da5193098a91dbef3f10682ad109d86205bec3909dcf48bfb60bf5e70846deebae01969d3f05420e3163).
Definition chain_b23 : list step2 := [
  Dbl2 0x4a6068f57acaa5b2cd3b8c2b519d696d4fd9c0fee967a45d02f34d48c71fab58a48e8c3687b59c7f0d176a1a0ec5a70 0x19bd1d32ab39dc1eb953590544eaff972fbc77129d69ccc73bc688ebc450f4e4ca052c5452e78ea555a2de85089c4cc9 0x4085f31af64a4fba69736227f6c0bdabb729d84e79309efa658b070565a1910cdad1124b927769e9356064a59818716a 0x31ce3d32031418a2d4bce4de5674027464a0ed9ec1b1ffcb11039a06250bf87d6a238c3115a8f89426c8787b3a90c38c 0x18a51f179f1bd1f18a538d6152c77c0af1bf80e32349c828e807b75b556ed08a1d6fc5d6c6403a78fcd5303452cb6c8d (-0x933c167a490a29c4f193bd5427558ff2c82c75e97d0902115766e672b7565831bcfc6a1fb9228f16aa9fbae0e5feb5b) 0xc6fed8eb7c02ec968c71c04b1ff3a4785039c4e89b813342142d085b230cb6110fd03a3085ddb641312666005bf18f6 (-0x15c18faa46c2d81a2d027f072c4a461380323d1e6cb83e96009824a91c41ef473e874c4ca7b2b27f72908c20ea3d5ed);
  Dbl2 0x5bedb79da3cbc77dab975a0ee093d2ffee94b428acc1d7a0b08d342bd4bb9d7dc715342b5ea3592407639fab4bf1c40 0x5dd9f05d6bd472930d3379e83e01b4f8db655a1c154de546f83f84b88755357ffb7ffc474685ea43c417b1f1a51a83a 0xb0581ab7a778495a080caac2dc9fdf0bf9285950bc64820f788e9f245d2da000e825db05c38fceb662b9d0779fb72ed 0x19038e499220a70616f7a756a01b13c404026dbfd777eec84c9165151ca5adca32c083a543a223de8ffda1865d58d50 0xdbc8bcf4d60eed18e354edc0a2510078dc1e1c089fa1397a18cd1f8dbe583cb6bd9a70b88b952d2d7afe092d10650 (-0x2978e6ccb35adb0e699639f5328ef250ef253e3db12e8caea0adf70c90cb8448f446f5f72c66b48ad6dd359b503bd81) 0x251ddd6cbf49c970ab83e4413ea8584824629e8414f9a9c49800ecf3bce461f14d92439416328e39bee1e37b2927952 0x7f2a0d33ee3a19ba4e46731c8ee1103eb17038da5ff5fc20d0de0e76fbf152fc83aedcb8e70e03ee9212b1cee29c813;
  Dbl2 0x860d4bc24f54dce03ddc81566b6d9dd7dd86c47e76a9868523475799262256739091b215b152be142862fd3b33ed90b 0x352006ea3ff923ff534aa81fe4596e95b9b72a207e9278a7ed284ff7b25e8d9455658af53422a58e262e3d692502c7 0x754c33c8c9f8dcbbf839d4ac596983377921e2cd40df533060c3d82926f15b466cd01d1dab9f98dc79991de4d8f4699 (-0x81be0dc61f2687cfa5ae0c17249fca691e81cdab253c897c1fe9415e3c32d664dffce58eb8f18ac4db14823928d875fc) (-0x2b29da5349e6a9acb8993a4a51ad65d9161c035589f6181e161618b686b19921fbd55632157d9cf6bdef8b353628dd2) (-0x223b8b01641996bda7d719f2ded8588d940229f12129cb17e9db4d672c04af8670d9d0780fd88e2448d9fc809a0b05) (-0xe741eb3334b5e1e4427a155477eb484ee9013c215834c29fda9bad5df5ed8091d9e81d24a198d53f786269b83c30f4) (-0x9d6fa0a037c7563057ea3184c6d3622bc4c461c7ac8fae83a729632e0cdb039b7d5008f2b073c7ae4b6c17764eb2ed);
  Dbl2 0xa90ba7082fdfb88f87a211159711e581c750825119186f33c16d3128a38614859cc8e0196cbeadb0af4456d68452293 0x5b97c5d860526c8791aa938e0c37b3196a4a9cdc99cdd0236da513a9a6ca3ec105f5ede8062fe7a38e205de30ce60bf 0x93e9ca162cfcf12979757946f80e72bc70826665ecbab9f50f181a9723504ed48256caedd3fabd77c7d77fca9865b63 (-0x622131a21fd6717837f8c7a1d97bb1297dc89b254423f47506fc1710abf337931b84dbfff92b082b1491394996c4a7e6) (-0x3084daf417fec9357a7482cafaa1f64c132f798a112aa7d082e8caf1a0523ecf3607445a1985ee57f114dfefecf773c) (-0x4a6d6239053c054d217da7c55316d96070cd7655c1c9755e0f6e7e0abdb81464dfc684cdf94407357fd95986b6a0850) (-0x8731974859da2518fe2ea36711dda9c8e793521e4966719913e8a81e41798c4094e4da1c0c16881bc980f5b166ba470) (-0x2e764a4fc0a4dfa5818ad8f4489f3a405b746084a71fcd6c0634afdbe8cceac26819705a115ece1279ce84601d25296)].
Definition tb23 : Z * Z * Z * Z :=
  (0x23f0253bc60850fd5d60231405b5f628a0af9e81b7bcbcfb10e2886996a3ed59803d13c969b7441a11dd7da44d30430, 0x18d9cd6514237c4c75118150b5ef35ce8acdcfadca7786a01539d894cec05c2dee5b3a10fb1e9fe2ddcef0bbe4c76ca0, 0x107df51ea44d25b2c2874d59861eb30510ee8e65060b26dd30093de13120a4ff09fc309093eb189a3ef2af914a210674, 0xff66a5e23eb843bf11e580bf5c408ea2eff3f1a7a1a4cfec980b75f3a75073b5d2e7794c3e2440066ea913305bd7e1f).
Definition add_c23 : step2 :=
  Add2 0xeaee8de0ef8e7336a900d15db53891c74cd1bf805a98b1cb4c608ef3bdf51feb5a5936fcce5859af30b24e651ede059 0x174f71aa06589c799ced3be97d4f1bd25864ea0146d9000095a1ea9d68f4f8c2b6b97cb09544a6aa2f7892c3ee39bd1d (-0xc2921b953a12cb3dc7c6c33ee6a819894a13aafe657373e12fd759cd0ff7f5487f03241ae946cb60dd679586bead2af) (-0x8ff01da6f6bd19fcc5ee480c97fb5b11a2ce3bd5be2a6feb70b9633d69afe763cf9797bcd204fd7165c0e8fc3a0656b) 0xc9acafc530bab467f0914a50698399f27cb63f15abf746cace6c3003d270db5c2a144a8487e9387a47e7413ec375aa6 (-0x1a530692dde629187681a32240df2df7478a2a842b91e5183c12fd5b60d847c80c14a3170b634d40ad3ddc757b7f0c37) 0x785d730dd84a2b3822f48a7f6a33302c1676730dea51cdd085e894e7b50748d8e068a77e21528ce52e35cab3d15f32d (-0xe3150b01bfacf23ae2c7ac3b5f37a0d364e1ad41fc66e4881e3fb2e26ad7d600ac228112e6dae6f2548689b0fb20217).
