(** * Tables: the constant tables of the repository, copied literally

    Limb arrays are little-endian 64-bit words, exactly as written in the sources. *)
From Coq Require Import ZArith List.
Import ListNotations.
Local Open Scope Z_scope.

(** value of a little-endian array of 64-bit limbs *)
Fixpoint limbs_val (l : list Z) : Z :=
  match l with [] => 0 | x :: t => x + 2 ^ 64 * limbs_val t end.

(** blst-from-scratch/src/consts.rs:17-50 [SCALE2_ROOT_OF_UNITY] *)
Definition blst_SCALE2_ROOT_OF_UNITY : list (list Z) := [
  [0x0000000000000001; 0x0000000000000000; 0x0000000000000000; 0x0000000000000000];
  [0xffffffff00000000; 0x53bda402fffe5bfe; 0x3339d80809a1d805; 0x73eda753299d7d48];
  [0x0001000000000000; 0xec03000276030000; 0x8d51ccce760304d0; 0x0000000000000000];
  [0x7228fd3397743f7a; 0xb38b21c28713b700; 0x8c0625cd70d77ce2; 0x345766f603fa66e7];
  [0x53ea61d87742bcce; 0x17beb312f20b6f76; 0xdd1c0af834cec32c; 0x20b1ce9140267af9];
  [0x360c60997369df4e; 0xbf6e88fb4c38fb8a; 0xb4bcd40e22f55448; 0x50e0903a157988ba];
  [0x8140d032f0a9ee53; 0x2d967f4be2f95155; 0x14a1e27164d8fdbd; 0x45af6345ec055e4d];
  [0x5130c2c1660125be; 0x98d0caac87f5713c; 0xb7c68b4d7fdd60d0; 0x6898111413588742];
  [0x4935bd2f817f694b; 0x0a0865a899e8deff; 0x6b368121ac0cf4ad; 0x4f9b4098e2e9f12e];
  [0x4541b8ff2ee0434e; 0xd697168a3a6000fe; 0x39feec240d80689f; 0x095166525526a654];
  [0x3c28d666a5c2d854; 0xea437f9626fc085e; 0x8f4de02c0f776af3; 0x325db5c3debf77a1];
  [0x4a838b5d59cd79e5; 0x55ea6811be9c622d; 0x09f1ca610a08f166; 0x6d031f1b5c49c834];
  [0xe206da11a5d36306; 0x0ad1347b378fbf96; 0xfc3e8acfe0f8245f; 0x564c0a11a0f704f4];
  [0x6fdd00bfc78c8967; 0x146b58bc434906ac; 0x2ccddea2972e89ed; 0x485d512737b1da3d];
  [0x034d2ff22a5ad9e1; 0xae4622f6a9152435; 0xdc86b01c0d477fa6; 0x56624634b500a166];
  [0xfbd047e11279bb6e; 0xc8d5f51db3f32699; 0x483405417a0cbe39; 0x3291357ee558b50d];
  [0xd7118f85cd96b8ad; 0x67a665ae1fcadc91; 0x88f39a78f1aeb578; 0x2155379d12180caa];
  [0x08692405f3b70f10; 0xcd7f2bd6d0711b7d; 0x473a2eef772c33d6; 0x224262332d8acbf4];
  [0x6f421a7d8ef674fb; 0xbb97a3bf30ce40fd; 0x652f717ae1c34bb0; 0x2d3056a530794f01];
  [0x194e8c62ecb38d9d; 0xad8e16e84419c750; 0xdf625e80d0adef90; 0x520e587a724a6955];
  [0xfece7e0e39898d4b; 0x2f69e02d265e09d9; 0xa57a6e07cb98de4a; 0x03e1c54bcb947035];
  [0xcd3979122d3ea03a; 0x46b3105f04db5844; 0xc70d0874b0691d4e; 0x47c8b5817018af4f];
  [0xc6e7a6ffb08e3363; 0xe08fec7c86389bee; 0xf2d38f10fbb8d1bb; 0x0abe6a5e5abcaa32];
  [0x5616c57de0ec9eae; 0xc631ffb2585a72db; 0x5121af06a3b51e3c; 0x73560252aa0655b2];
  [0x92cf4deb77bd779c; 0x72cf6a8029b7d7bc; 0x6e0bcd91ee762730; 0x291cf6d68823e687];
  [0xce32ef844e11a51e; 0xc0ba12bb3da64ca5; 0x0454dc1edc61a1a3; 0x019fe632fd328739];
  [0x531a11a0d2d75182; 0x02c8118402867ddc; 0x116168bffbedc11d; 0x0a0a77a3b1980c0d];
  [0xe2d0a7869f0319ed; 0xb94f1101b1d7a628; 0xece8ea224f31d25d; 0x23397a9300f8f98b];
  [0xd7b688830a4f2089; 0x6558e9e3f6ac7b41; 0x99e276b571905a7d; 0x52dd465e2f094256];
  [0x474650359d8e211b; 0x84d37b826214abc6; 0x8da40c1ef2bb4598; 0x0c83ea7744bf1bee];
  [0x694341f608c9dd56; 0xed3a181fabb30adc; 0x1339a815da8b398f; 0x2c6d4e4511657e1e];
  [0x63e7cb4906ffc93f; 0xf070bb00e28a193d; 0xad1715b02e5713b5; 0x4b5371495990693f]].

(** Arkworks/src/fft.rs:12-205 [SCALE2_ROOT_OF_UNITY] *)
Definition ark_SCALE2_ROOT_OF_UNITY : list (list Z) := [
  [0x0000000000000001; 0x0000000000000000; 0x0000000000000000; 0x0000000000000000];
  [0xffffffff00000000; 0x53bda402fffe5bfe; 0x3339d80809a1d805; 0x73eda753299d7d48];
  [0x0001000000000000; 0xec03000276030000; 0x8d51ccce760304d0; 0x0000000000000000];
  [0x7228fd3397743f7a; 0xb38b21c28713b700; 0x8c0625cd70d77ce2; 0x345766f603fa66e7];
  [0x53ea61d87742bcce; 0x17beb312f20b6f76; 0xdd1c0af834cec32c; 0x20b1ce9140267af9];
  [0x360c60997369df4e; 0xbf6e88fb4c38fb8a; 0xb4bcd40e22f55448; 0x50e0903a157988ba];
  [0x8140d032f0a9ee53; 0x2d967f4be2f95155; 0x14a1e27164d8fdbd; 0x45af6345ec055e4d];
  [0x5130c2c1660125be; 0x98d0caac87f5713c; 0xb7c68b4d7fdd60d0; 0x6898111413588742];
  [0x4935bd2f817f694b; 0x0a0865a899e8deff; 0x6b368121ac0cf4ad; 0x4f9b4098e2e9f12e];
  [0x4541b8ff2ee0434e; 0xd697168a3a6000fe; 0x39feec240d80689f; 0x095166525526a654];
  [0x3c28d666a5c2d854; 0xea437f9626fc085e; 0x8f4de02c0f776af3; 0x325db5c3debf77a1];
  [0x4a838b5d59cd79e5; 0x55ea6811be9c622d; 0x09f1ca610a08f166; 0x6d031f1b5c49c834];
  [0xe206da11a5d36306; 0x0ad1347b378fbf96; 0xfc3e8acfe0f8245f; 0x564c0a11a0f704f4];
  [0x6fdd00bfc78c8967; 0x146b58bc434906ac; 0x2ccddea2972e89ed; 0x485d512737b1da3d];
  [0x034d2ff22a5ad9e1; 0xae4622f6a9152435; 0xdc86b01c0d477fa6; 0x56624634b500a166];
  [0xfbd047e11279bb6e; 0xc8d5f51db3f32699; 0x483405417a0cbe39; 0x3291357ee558b50d];
  [0xd7118f85cd96b8ad; 0x67a665ae1fcadc91; 0x88f39a78f1aeb578; 0x2155379d12180caa];
  [0x08692405f3b70f10; 0xcd7f2bd6d0711b7d; 0x473a2eef772c33d6; 0x224262332d8acbf4];
  [0x6f421a7d8ef674fb; 0xbb97a3bf30ce40fd; 0x652f717ae1c34bb0; 0x2d3056a530794f01];
  [0x194e8c62ecb38d9d; 0xad8e16e84419c750; 0xdf625e80d0adef90; 0x520e587a724a6955];
  [0xfece7e0e39898d4b; 0x2f69e02d265e09d9; 0xa57a6e07cb98de4a; 0x03e1c54bcb947035];
  [0xcd3979122d3ea03a; 0x46b3105f04db5844; 0xc70d0874b0691d4e; 0x47c8b5817018af4f];
  [0xc6e7a6ffb08e3363; 0xe08fec7c86389bee; 0xf2d38f10fbb8d1bb; 0x0abe6a5e5abcaa32];
  [0x5616c57de0ec9eae; 0xc631ffb2585a72db; 0x5121af06a3b51e3c; 0x73560252aa0655b2];
  [0x92cf4deb77bd779c; 0x72cf6a8029b7d7bc; 0x6e0bcd91ee762730; 0x291cf6d68823e687];
  [0xce32ef844e11a51e; 0xc0ba12bb3da64ca5; 0x0454dc1edc61a1a3; 0x019fe632fd328739];
  [0x531a11a0d2d75182; 0x02c8118402867ddc; 0x116168bffbedc11d; 0x0a0a77a3b1980c0d];
  [0xe2d0a7869f0319ed; 0xb94f1101b1d7a628; 0xece8ea224f31d25d; 0x23397a9300f8f98b];
  [0xd7b688830a4f2089; 0x6558e9e3f6ac7b41; 0x99e276b571905a7d; 0x52dd465e2f094256];
  [0x474650359d8e211b; 0x84d37b826214abc6; 0x8da40c1ef2bb4598; 0x0c83ea7744bf1bee];
  [0x694341f608c9dd56; 0xed3a181fabb30adc; 0x1339a815da8b398f; 0x2c6d4e4511657e1e];
  [0x63e7cb4906ffc93f; 0xf070bb00e28a193d; 0xad1715b02e5713b5; 0x4b5371495990693f]].

(** zkcrypto/src/consts.rs:8-42 [SCALE2_ROOT_OF_UNITY] *)
Definition zk_SCALE2_ROOT_OF_UNITY : list (list Z) := [
  [0x0000000000000001; 0x0000000000000000; 0x0000000000000000; 0x0000000000000000];
  [0xffffffff00000000; 0x53bda402fffe5bfe; 0x3339d80809a1d805; 0x73eda753299d7d48];
  [0x0001000000000000; 0xec03000276030000; 0x8d51ccce760304d0; 0x0000000000000000];
  [0x7228fd3397743f7a; 0xb38b21c28713b700; 0x8c0625cd70d77ce2; 0x345766f603fa66e7];
  [0x53ea61d87742bcce; 0x17beb312f20b6f76; 0xdd1c0af834cec32c; 0x20b1ce9140267af9];
  [0x360c60997369df4e; 0xbf6e88fb4c38fb8a; 0xb4bcd40e22f55448; 0x50e0903a157988ba];
  [0x8140d032f0a9ee53; 0x2d967f4be2f95155; 0x14a1e27164d8fdbd; 0x45af6345ec055e4d];
  [0x5130c2c1660125be; 0x98d0caac87f5713c; 0xb7c68b4d7fdd60d0; 0x6898111413588742];
  [0x4935bd2f817f694b; 0x0a0865a899e8deff; 0x6b368121ac0cf4ad; 0x4f9b4098e2e9f12e];
  [0x4541b8ff2ee0434e; 0xd697168a3a6000fe; 0x39feec240d80689f; 0x095166525526a654];
  [0x3c28d666a5c2d854; 0xea437f9626fc085e; 0x8f4de02c0f776af3; 0x325db5c3debf77a1];
  [0x4a838b5d59cd79e5; 0x55ea6811be9c622d; 0x09f1ca610a08f166; 0x6d031f1b5c49c834];
  [0xe206da11a5d36306; 0x0ad1347b378fbf96; 0xfc3e8acfe0f8245f; 0x564c0a11a0f704f4];
  [0x6fdd00bfc78c8967; 0x146b58bc434906ac; 0x2ccddea2972e89ed; 0x485d512737b1da3d];
  [0x034d2ff22a5ad9e1; 0xae4622f6a9152435; 0xdc86b01c0d477fa6; 0x56624634b500a166];
  [0xfbd047e11279bb6e; 0xc8d5f51db3f32699; 0x483405417a0cbe39; 0x3291357ee558b50d];
  [0xd7118f85cd96b8ad; 0x67a665ae1fcadc91; 0x88f39a78f1aeb578; 0x2155379d12180caa];
  [0x08692405f3b70f10; 0xcd7f2bd6d0711b7d; 0x473a2eef772c33d6; 0x224262332d8acbf4];
  [0x6f421a7d8ef674fb; 0xbb97a3bf30ce40fd; 0x652f717ae1c34bb0; 0x2d3056a530794f01];
  [0x194e8c62ecb38d9d; 0xad8e16e84419c750; 0xdf625e80d0adef90; 0x520e587a724a6955];
  [0xfece7e0e39898d4b; 0x2f69e02d265e09d9; 0xa57a6e07cb98de4a; 0x03e1c54bcb947035];
  [0xcd3979122d3ea03a; 0x46b3105f04db5844; 0xc70d0874b0691d4e; 0x47c8b5817018af4f];
  [0xc6e7a6ffb08e3363; 0xe08fec7c86389bee; 0xf2d38f10fbb8d1bb; 0x0abe6a5e5abcaa32];
  [0x5616c57de0ec9eae; 0xc631ffb2585a72db; 0x5121af06a3b51e3c; 0x73560252aa0655b2];
  [0x92cf4deb77bd779c; 0x72cf6a8029b7d7bc; 0x6e0bcd91ee762730; 0x291cf6d68823e687];
  [0xce32ef844e11a51e; 0xc0ba12bb3da64ca5; 0x0454dc1edc61a1a3; 0x019fe632fd328739];
  [0x531a11a0d2d75182; 0x02c8118402867ddc; 0x116168bffbedc11d; 0x0a0a77a3b1980c0d];
  [0xe2d0a7869f0319ed; 0xb94f1101b1d7a628; 0xece8ea224f31d25d; 0x23397a9300f8f98b];
  [0xd7b688830a4f2089; 0x6558e9e3f6ac7b41; 0x99e276b571905a7d; 0x52dd465e2f094256];
  [0x474650359d8e211b; 0x84d37b826214abc6; 0x8da40c1ef2bb4598; 0x0c83ea7744bf1bee];
  [0x694341f608c9dd56; 0xed3a181fabb30adc; 0x1339a815da8b398f; 0x2c6d4e4511657e1e];
  [0x63e7cb4906ffc93f; 0xf070bb00e28a193d; 0xad1715b02e5713b5; 0x4b5371495990693f]].

(** ckzg/src/consts.rs:46-79 [SCALE2_ROOT_OF_UNITY] *)
Definition ckzg_SCALE2_ROOT_OF_UNITY : list (list Z) := [
  [0x0000000000000001; 0x0000000000000000; 0x0000000000000000; 0x0000000000000000];
  [0xffffffff00000000; 0x53bda402fffe5bfe; 0x3339d80809a1d805; 0x73eda753299d7d48];
  [0x0001000000000000; 0xec03000276030000; 0x8d51ccce760304d0; 0x0000000000000000];
  [0x7228fd3397743f7a; 0xb38b21c28713b700; 0x8c0625cd70d77ce2; 0x345766f603fa66e7];
  [0x53ea61d87742bcce; 0x17beb312f20b6f76; 0xdd1c0af834cec32c; 0x20b1ce9140267af9];
  [0x360c60997369df4e; 0xbf6e88fb4c38fb8a; 0xb4bcd40e22f55448; 0x50e0903a157988ba];
  [0x8140d032f0a9ee53; 0x2d967f4be2f95155; 0x14a1e27164d8fdbd; 0x45af6345ec055e4d];
  [0x5130c2c1660125be; 0x98d0caac87f5713c; 0xb7c68b4d7fdd60d0; 0x6898111413588742];
  [0x4935bd2f817f694b; 0x0a0865a899e8deff; 0x6b368121ac0cf4ad; 0x4f9b4098e2e9f12e];
  [0x4541b8ff2ee0434e; 0xd697168a3a6000fe; 0x39feec240d80689f; 0x095166525526a654];
  [0x3c28d666a5c2d854; 0xea437f9626fc085e; 0x8f4de02c0f776af3; 0x325db5c3debf77a1];
  [0x4a838b5d59cd79e5; 0x55ea6811be9c622d; 0x09f1ca610a08f166; 0x6d031f1b5c49c834];
  [0xe206da11a5d36306; 0x0ad1347b378fbf96; 0xfc3e8acfe0f8245f; 0x564c0a11a0f704f4];
  [0x6fdd00bfc78c8967; 0x146b58bc434906ac; 0x2ccddea2972e89ed; 0x485d512737b1da3d];
  [0x034d2ff22a5ad9e1; 0xae4622f6a9152435; 0xdc86b01c0d477fa6; 0x56624634b500a166];
  [0xfbd047e11279bb6e; 0xc8d5f51db3f32699; 0x483405417a0cbe39; 0x3291357ee558b50d];
  [0xd7118f85cd96b8ad; 0x67a665ae1fcadc91; 0x88f39a78f1aeb578; 0x2155379d12180caa];
  [0x08692405f3b70f10; 0xcd7f2bd6d0711b7d; 0x473a2eef772c33d6; 0x224262332d8acbf4];
  [0x6f421a7d8ef674fb; 0xbb97a3bf30ce40fd; 0x652f717ae1c34bb0; 0x2d3056a530794f01];
  [0x194e8c62ecb38d9d; 0xad8e16e84419c750; 0xdf625e80d0adef90; 0x520e587a724a6955];
  [0xfece7e0e39898d4b; 0x2f69e02d265e09d9; 0xa57a6e07cb98de4a; 0x03e1c54bcb947035];
  [0xcd3979122d3ea03a; 0x46b3105f04db5844; 0xc70d0874b0691d4e; 0x47c8b5817018af4f];
  [0xc6e7a6ffb08e3363; 0xe08fec7c86389bee; 0xf2d38f10fbb8d1bb; 0x0abe6a5e5abcaa32];
  [0x5616c57de0ec9eae; 0xc631ffb2585a72db; 0x5121af06a3b51e3c; 0x73560252aa0655b2];
  [0x92cf4deb77bd779c; 0x72cf6a8029b7d7bc; 0x6e0bcd91ee762730; 0x291cf6d68823e687];
  [0xce32ef844e11a51e; 0xc0ba12bb3da64ca5; 0x0454dc1edc61a1a3; 0x019fe632fd328739];
  [0x531a11a0d2d75182; 0x02c8118402867ddc; 0x116168bffbedc11d; 0x0a0a77a3b1980c0d];
  [0xe2d0a7869f0319ed; 0xb94f1101b1d7a628; 0xece8ea224f31d25d; 0x23397a9300f8f98b];
  [0xd7b688830a4f2089; 0x6558e9e3f6ac7b41; 0x99e276b571905a7d; 0x52dd465e2f094256];
  [0x474650359d8e211b; 0x84d37b826214abc6; 0x8da40c1ef2bb4598; 0x0c83ea7744bf1bee];
  [0x694341f608c9dd56; 0xed3a181fabb30adc; 0x1339a815da8b398f; 0x2c6d4e4511657e1e];
  [0x63e7cb4906ffc93f; 0xf070bb00e28a193d; 0xad1715b02e5713b5; 0x4b5371495990693f]].

(** mcl-kzg/kzg/src/fk20_fft.rs:9-40 [SCALE_2_ROOT_OF_UNITY_PR5_STRINGS] *)
Definition mcl_PR5 : list Z := [
  1;
  52435875175126190479447740508185965837690552500527637822603658699938581184512;
  3465144826073652318776269530687742778270252468765361963008;
  28761180743467419819834788392525162889723178799021384024940474588120723734663;
  35811073542294463015946892559272836998938171743018714161809767624935956676211;
  32311457133713125762627935188100354218453688428796477340173861531654182464166;
  6460039226971164073848821215333189185736442942708452192605981749202491651199;
  3535074550574477753284711575859241084625659976293648650204577841347885064712;
  21071158244812412064791010377580296085971058123779034548857891862303448703672;
  12531186154666751577774347439625638674013361494693625348921624593362229945844;
  21328829733576761151404230261968752855781179864716879432436835449516750606329;
  30450688096165933124094588052280452792793350252342406284806180166247113753719;
  7712148129911606624315688729500842900222944762233088101895611600385646063109;
  4862464726302065505506688039068558711848980475932963135959468859464391638674;
  36362449573598723777784795308133589731870287401357111047147227126550012376068;
  30195699792882346185164345110260439085017223719129789169349923251189180189908;
  46605497109352149548364111935960392432509601054990529243781317021485154656122;
  2655041105015028463885489289298747241391034429256407017976816639065944350782;
  42951892408294048319804799042074961265671975460177021439280319919049700054024;
  26418991338149459552592774439099778547711964145195139895155358980955972635668;
  23615957371642610195417524132420957372617874794160903688435201581369949179370;
  50175287592170768174834711592572954584642344504509533259061679462536255873767;
  1664636601308506509114953536181560970565082534259883289958489163769791010513;
  36760611456605667464829527713580332378026420759024973496498144810075444759800;
  13205172441828670567663721566567600707419662718089030114959677511969243860524;
  10335750295308996628517187959952958185340736185617535179904464397821611796715;
  51191008403851428225654722580004101559877486754971092640244441973868858562750;
  24000695595003793337811426892222725080715952703482855734008731462871475089715;
  18727201054581607001749469507512963489976863652151448843860599973148080906836;
  50819341139666003587274541409207395600071402220052213520254526953892511091577;
  3811138593988695298394477416060533432572377403639180677141944665584601642504;
  43599901455287962219281063402626541872197057165786841304067502694013639882090].

(** mcl-kzg/kzg/src/fk20_fft.rs:42-73 [SCALE_2_ROOT_OF_UNITY_PR7_STRINGS] *)
Definition mcl_PR7 : list Z := [
  1;
  52435875175126190479447740508185965837690552500527637822603658699938581184512;
  3465144826073652318776269530687742778270252468765361963008;
  23674694431658770659612952115660802947967373701506253797663184111817857449850;
  14788168760825820622209131888203028446852016562542525606630160374691593895118;
  36581797046584068049060372878520385032448812009597153775348195406694427778894;
  31519469946562159605140591558550197856588417350474800936898404023113662197331;
  3535074550574477753284711575859241084625659976293648650204577841347885064712;
  21071158244812412064791010377580296085971058123779034548857891862303448703672;
  12531186154666751577774347439625638674013361494693625348921624593362229945844;
  21328829733576761151404230261968752855781179864716879432436835449516750606329;
  30450688096165933124094588052280452792793350252342406284806180166247113753719;
  7712148129911606624315688729500842900222944762233088101895611600385646063109;
  4862464726302065505506688039068558711848980475932963135959468859464391638674;
  36362449573598723777784795308133589731870287401357111047147227126550012376068;
  30195699792882346185164345110260439085017223719129789169349923251189180189908;
  46605497109352149548364111935960392432509601054990529243781317021485154656122;
  2655041105015028463885489289298747241391034429256407017976816639065944350782;
  42951892408294048319804799042074961265671975460177021439280319919049700054024;
  26418991338149459552592774439099778547711964145195139895155358980955972635668;
  23615957371642610195417524132420957372617874794160903688435201581369949179370;
  50175287592170768174834711592572954584642344504509533259061679462536255873767;
  1664636601308506509114953536181560970565082534259883289958489163769791010513;
  36760611456605667464829527713580332378026420759024973496498144810075444759800;
  13205172441828670567663721566567600707419662718089030114959677511969243860524;
  10335750295308996628517187959952958185340736185617535179904464397821611796715;
  51191008403851428225654722580004101559877486754971092640244441973868858562750;
  24000695595003793337811426892222725080715952703482855734008731462871475089715;
  18727201054581607001749469507512963489976863652151448843860599973148080906836;
  50819341139666003587274541409207395600071402220052213520254526953892511091577;
  3811138593988695298394477416060533432572377403639180677141944665584601642504;
  43599901455287962219281063402626541872197057165786841304067502694013639882090].
