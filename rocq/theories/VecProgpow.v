(** The repository's test vectors for ProgPoW, replayed through the model: the inputs of the Go tests
    (with the 64 dataset items and the 16 KB cache that the test of the inner hash lists) give
    the outputs the Go tests ask for, up to the final digest of the 0.9.4 variant.  They are
    checked with the virtual machine when this file is compiled and leave no proof terms behind. *)
From Coq Require Import NArith List Bool.
From Coq Require String.
From Verif Require Import Base CryptoModel Hashes KeccakModel ProgpowModel.
Import ListNotations.
Import String.StringSyntax.
Open Scope string_scope.
Open Scope list_scope.
Open Scope N_scope.

(** Eight words of 32 bits, written as one number. *)
Definition words (rows : list N) : list N :=
  flat_map (fun x => map (fun i => N.shiftr x (32 * (7 - N.of_nat i)) mod 2 ^ 32) (seq 0 8)) rows.
Definition same (a b : list N) : bool := if list_eq_dec N.eq_dec a b then true else false.
Definition done {A} (r : outcome A) (p : A -> bool) : bool := match r with Done x => p x | _ => false end.

(** math_test.go:11-98 *)
Check (eq_refl true <: forallb (fun '(a, b, s, v) => randomMath a b s =? v)
  [(0x8626bb1f, 0xbbdfbc4e, 0x883e5b49, 0x4206776d);
   (0x3f4bdfac, 0xd79e414f, 0x36b71236, 0x4c5cb214);
   (0x6d175b7e, 0xc4e89d4c, 0x944ecabb, 0x53e9023f);
   (0x2eddd94c, 0x7e70cb54, 0x3f472a85, 0x2eddd94c);
   (0x61ae0e62, 0xe0596b32, 0x3f472a85, 0x61ae0e62);
   (0x8a81e396, 0x3f4bdfac, 0xcec46e67, 0x1e3968a8);
   (0x8a81e396, 0x7e70cb54, 0xdbe71ff7, 0x1e3968a8);
   (0xa7352f36, 0xa0eb7045, 0x59e7b9d8, 0xa0212004);
   (0xc89805af, 0x64291e2f, 0x1bdc84a9, 0xecb91faf);
   (0x760726d3, 0x79fc6a48, 0xc675cac5, 0xffb4c9b);
   (0x75551d43, 0x3383ba34, 0x2863ad31, 0x3);
   (0xea260841, 0xe92c44b7, 0xf83ffe7d, 0x1b)] = true).
(** math_test.go:100-144 *)
Check (eq_refl true <: forallb (fun '(a, b, s, v) => randomMerge a b s =? v)
  [(0x3b0bb37d, 0xa0212004, 0x9bd26ab0, 0x3ca34321);
   (0x10c02f0d, 0x870fa227, 0xd4f45515, 0x91c1326a);
   (0x24d2bae4, 0xffb4c9b, 0x7fdbc2f2, 0x2eddd94c);
   (0xda39e821, 0x89c4008, 0x8b6cd8c3, 0x8a81e396)] = true).
(** kiss99_test.go:11-68 *)
Definition kiss_out (n : N) : N :=
  fst (N.iter n (fun st => next (snd st)) (0, mkKiss 362436069 521288629 123456789 380116160)).
Check (eq_refl true <: forallb (fun '(n, v) => kiss_out n =? v)
  [(1, 769445856); (2, 742012328); (3, 2121196314); (4, 2805620942); (100000, 941074834)] = true).
(** mixrng_test.go:11-90 *)
Check (eq_refl true <: done (initMixRngState (30000 / 50) 32) (fun s =>
  same (srcSequence s) [26; 30; 1; 19; 11; 21; 15; 18; 3; 17; 31; 16; 28; 4; 22; 23; 2; 13; 29; 24; 10; 12; 5; 20; 7; 8; 14; 27; 6; 25; 9; 0] &&
  same (dstSequence s) [0; 4; 27; 26; 13; 15; 17; 7; 14; 8; 9; 12; 3; 10; 1; 11; 6; 16; 28; 31; 2; 19; 30; 22; 29; 5; 24; 18; 25; 23; 21; 20] &&
  (k_z (rng s) =? 0x6535921C) && (k_w (rng s) =? 0x29345B16) && (k_jsr (rng s) =? 0xC0DD7F78) &&
  (k_jcong (rng s) =? 0x1165D7EB)) = true).
(** algorithm_test.go:29-91 *)
Check (eq_refl true <: done (initMix 0xEE304846DDD0A47B 16 32) (fun mix =>
  same (nth 0 mix []) (words [0x10c02f0d99891c9ec59649a043f0394d24d2bae4c4e89d4c398ad25cf5c0e467;
    0x7a3302d6e6245c6c760726d31f322ee785405811c2f1e765a0eb7045da39e821;
    0x79fc6a48089e401f8488779fd79e414f041a826b313c0d7910125a3c3f4bdfac;
    0xa7352f367e70cb543b0bb37d74a3e24acc37236aa442b311955ab27a6d175b7e]) &&
  same (nth 13 mix []) (words [0x4e46d05d2e77e7342c47939970712177a75d7ff5bef18d178d42252e35b4fa0e;
    0x462c850a2dd2b5d55f32b5eced5d9eedf9e2685e1f29dc8ea78f098b86a8687b;
    0xea7a10e7be732b9d4eebcb6094dd7d9739a425e9c0e782bfba7b870f4823ff60;
    0xf97a5a1cb00bcaf402d0f8c428399214b4ccb32d83a0913227ea82793837dda3])) = true).
(** algorithm_test.go:220-733 and 1577-2090, the same words in both *)
Definition test_l1 : list N := words [
  0xb5af2ef963a64dc254d3d9c1c2ce4b3b6efe268afd6ef98a40f2cf9826bf6dd4;
  0x996ae335d320526f1356d4cedd4944590f8839f07aadbeefc9f58138437fe134;
  0x03f5702049c134ca40395d06bbd70f28ab6fba0b52022f2d113e43ca25d4b9bb;
  0x9995be8fa1b9b66a520503604dc2edbedf58cb787a43516b3a8e15d668ba612a;
  0xd6da0f5ea33ec6c90d3b8b43f98f2cd282973e76df53e9bdbf1289a412d046c6;
  0x92a345b5c28d91bdffb7d799366824e18df576355f697d515ae7f14493474f1c;
  0xeaa568b630c536d96d2822aaf44247a08ffb5a80b47014b709a6712bac5c6e82;
  0xa54fd3012e9b832374128c7a6689d8b6816a0b5c3257145aaca5d3c4dcdbf371;
  0x2595bef2ec9f9b08032a70ceb314d917e52b70632e550688f17aefec0abbc7a6;
  0xe877b78de7d32221266fa4c138795eb8316992aebd4385933407b1016c5bb659;
  0xed257563e24ac28cdec0e4a92fddf12169f045acdc76d502f02fc9ea77ac564c;
  0xf3caad2801f064cfecc0f55d3e95335aea02528e19d108e470a001aaf4bc8776;
  0x33b6b9050d3a704c1200b6dddf1dc5c8b53e6bb0a930f2d3e2f4c89b4bb77622;
  0xdac5173d69661b87d4f7f1e361462a7ee2c2652f4c36536e103b413e7656443e;
  0x44956a651d8810c526fa94f82feece5b08dfb6fbb7469efd0516433df4bacc52;
  0x8ada5e339ec6646ecbb597fa79ff50e62f5c6e2e3b179c1046e1ea95c6858253;
  0x0f625135d9c09fb322950cf48fa841aeffcdb752ec05518d847dfcbb2629ff82;
  0xfee5471713b1fd747a98f3227b0c32dbe81a963e6738378a7f76ee6f25c6107a;
  0xd1f12586aa86e5d676c3d85cda003fccb57d72b62a5d4abcc69682ae24f05625;
  0x233f7f311749c03a54aed14f60cdf6056165b288c825ae5d153ef4701be2e4cc;
  0x6536fc7db47754238b5fd0e000c38b5670535878975c8eac645f656e5f73c2eb;
  0xd80c6974e22f3e7e395386499eb5a2bf2ce32bf1fe483f1829424b317e0786ea;
  0xf76aefdbf46173a2ee0544fb9399079cb80fb3f718517a50c21e4c893f1bb18d;
  0xc72a6c0732c4d9d51dd2e490ddbc82c0f6647068022e62295e3340befa51330e;
  0xd93f968b10ee5261b32dd37c41e442886f737cafbbf4d650b1d12ef6dfcd0984;
  0xee7bd53ef701bdeb8100d5c93fb6d66358094c6a29ff1442692d12d2de19e9a1;
  0x59bdbaa9b41c3192034519aa2c59f2bdf4911acce5f67a4c4b6ec2e4ecbfe606;
  0x55a5dec3bba4b20008ef4eb3c84d1b886f0cc944dffd8844b4b0f855190d99f1;
  0xebbe50bf6c0e37e9deb4557a53f8eba25a6b1a76b4ab9495ff8381ce742b3988;
  0x166be02c54a618094abaa190e59ddcd58182e41a9e1182ccf920e8b9d1808b0a;
  0x82858d556dfbeaa95506b93f3fea936d3d85dc98042a7095c048b79765ebf141;
  0x4ab64c053a7516d620168626772364e6e49e61758768146393ddaa7cb9e856f1;
  0x3b44a9bd0a0ccad01676d37b140a38ccc03586a82e446240098b2fba50967118;
  0x9c2ec2a1b36dcd4174dc5c058115e0cac843d263c6b79e999b5b8068d049c0ee;
  0x36ec29486c66bd9263bf075c45d5214e6b1565a763a185757b6da0709d3bfe75;
  0xd982607a9c558214d8e337e0dd770dd6b1fa7a27310dda1385813458e8c70f46;
  0x9abdcdac17322f63a53dd149bad163b25e88f5de86fb6b5f24a33c8ff93c201e;
  0xd52fbf3aabf115f3627495cd134f4a2f871f4bcf99c1abf8708cf12382f26d93;
  0x3174d487a87e84374fbed6f73feaaa71d388e8f4374d22e38195bf4097ab9bdf;
  0x62c0045d19a4327f7b3c83731fe434f1df6e3ff820ae626e50a72360ca1d4c4f;
  0xf3554b96365c1f1e29da173f7bec14dfbf8e53157cb140b1d194818e7588e933;
  0xf57b93c7b762f1ef551adf3d7f4891326f484c4c969f8d92cd91c76f8569f303;
  0x182b36723ea763379f57829c3b1e1a9f31111a217d2f64fd7b584d542a16197d;
  0xd67f25f5a788699699c6764fe70c8fb2b259ab44565e8453d3cbc76b2934eb08;
  0xce1fe4eb95d075cf8c435f018c11afc70438a2090205761dc514d2475e3fa9c8;
  0x7642ac04d948b5cadc1de764a98f6b042bbe03fa4e1471d48113fe759d1d4166;
  0x66ae683a0da434ae7d024c042eb6f797b404f21df43ddd20e6852d56c2db3d9c;
  0x025d86d6c72b8537e88f0d8d80f7cd5973476daf7c7eab6d6318ffefa5a12aeb;
  0x4657a568ead8f0de02b7847f9c772d98be7069bdf21ab70051c74058cd7502ad;
  0xcb7534a1567537922f435ce7824570cc917bb3503014c850edfa865a2b994f9c;
  0xefc9698053e5b33701747f0464206b26a0d1586b4edc30198fa01597489cdd93;
  0xefce5ead0b771573a72fab3fceb5c9863318b0ebee24b8ed15f14c63b9553853;
  0x778f0ff6821b49a820274700807db6bcc5062651056876ce6bfd5c99280d71c6;
  0x7d07f64ceeec6a9f7da03656d25feb9993c63adf4944fa98eac52bcec46fd78c;
  0xad3f84708899d59ad1bbb5faffac1984f9bfcc7af64c40e0f747442f586a5be4;
  0x6b517179f5900d8716e5771cfafbae3cde70476b9afd8302b5071c8ff04c9251;
  0x153a90c40cd5b8e3b58edfb63e5498d3e021e531e712b33a2c4a4266824a9193;
  0xdd1e01af1900575cfb1e5d514776d5b175e831c112db8fbbe3a807b13fbc2a7d;
  0xb7f5e7806f69ffa82e390493677441d115b4b92a683fc7937762831187a017b8;
  0x5e9246253240884b91bc50489fdea13714169e439202b7174068ff70736f47a6;
  0x02d9169ace21b2dd50bdc5bdf4036e799db9b6c80f3129ae4b5f038d4145e532;
  0xcd03bd45bd6ab37725b2251bd27fa8b59177a84b7f8523402bcda8c3cbf479da;
  0x55becaf4b682dc4953df082494b2f7c3961f1603c6a3c5fc30fe752deeec125d;
  0x4e19b1d179dc5faa9c8f2a59b2adb843110f6f7e3f896840be6f8fe143dabfd0;
  0xf03f8c47d3eb4c8f0846b44dfde3b58dd9af30fb486ba7309495542423b05626;
  0xaa543b76367fe3696407ee47e0cde63e3a4a0f3e5a6c300e7fb9ee68364bdca6;
  0x6b4e6be41d16e6c8de27999f19d66778a1f9fcbc992fefb56b05868fc6c31b9f;
  0xf82a36cf6a8cc527cb82cabe6283ed14eb652f4056937b7510309e5e2c595340;
  0x4eeacbdc28126a2ce26dc8d7516bb943d5245c865b03a2c74eb14e0cecd34fcf;
  0x4c9ccd14747fa36ed752c8565dd837ab692f9cd1ef9f70603bf785a32e1a9d23;
  0x248188626059298275a3fd2d4a40cc588f4b82296f03310a68785a2c5348899b;
  0x8cbbdcd70cbc0639ec3679813473ea462f02c32a83e1df998878ac9956fcb9a7;
  0xff9544b103442956cdad9a270b292a4e237f17dfd0e81941f62176bafc619ef2;
  0x52803bf0fde8bd9fab1676e1755ea33c1abffce9cfece42b2209bfaaebfcad86;
  0x33808593b9da14c876952cb12c32847108584cf982022de2ba4b56c2585d9e4c;
  0x1ea92e793ee72d933b4f765ad8928fcf90a67bfe4c3c7df1c26781e74957adc2;
  0xdd4b772b018a6ed2a3c565b6d9bf704f142315f51e674f7b36529d6f79ad6608;
  0xe05c7e97ed6fe0edfb56cfa6c25d3fdcce641a423f270796913555d144e240eb;
  0x5311a5ae88a61ee685701f41563c4820836dcb6416ed980dd4da396a5eba12ca;
  0x2cb90a2eb0a29e4a6d5c6ea36fe96777cefa542199db60cac97bbde624b83316;
  0x3fc7d390b6cf60e689f46c679aa5a22bfa4454b3773f3a1a9a9dba2bb640a272;
  0x3f74ebfecc5a50fcea5613cbf4ccd5d5d61b3ba52c077f4788c5be0c8fcd7dae;
  0xde15daf50bf3da2a2842f6db2131943638e7be4d124c3c311e55001e243b91b4;
  0xae38f6e46f0ffbd791206e75549d7dc3cbe17e640518e26ff3d44bc3420e15fb;
  0x1d992be5a04c7a4d620f972d9d33b006ab02f64139284d9ab52d8f5d4adc709a;
  0xeac7c8142d51c644020ab7d81acadacd8abee31a0e9fda831ea9d50f9b280751;
  0x5c41321ee55434d8cd9fc87e9893a17e2eca1fe99af19415189f3df894205f91;
  0xcd17c2fbe4e6c7557f0fe1f23dc1fe9206052dab46ec210b767809f43d2dcb72;
  0x47933159efe85151f3240c02cfe9db107bdc9ef8ee41748692baf0fd1f816f63;
  0x0a9ee4af586d430e7f57eda0f43e5957b1df61bf90e685b33771dcf62b3cfb01;
  0xaedb4847a31661f8e03fefa5ceac73c4836b2ecd891477065d587cef44e5615d;
  0xdc542a1e2aee474b23e8216815d367e81ae856e7a11da7f72541b396406e3472;
  0x1a2867f7a7d3b0bfbde33dbcea8d9f4bf27e890bfe4a83a1ea0fe81faec6b6c4;
  0x594637d4904d8c6e600656a9a3450015b4be2e29535d80f7ea368dac3b043e33;
  0x815604c1d120f2c6f05448fde155b25686bc43110f655ca022cbd995455b2039;
  0x22ac41d749455f959273a4b9a44cbab229322f3edd83fd95d9eadeb9c14ba2d9;
  0xbfbd04ef5dae6c925f18d9669530bd70632df7925db6b76113eb94bc807ec672;
  0xed7906676ba1eed37a1305e0dcabb4b43328d9e01c5573ba9ebe136f91795fc7;
  0xff62c054a082e0f8518b268948817d157310993077042fb8411e073d1b9b0b01;
  0xb55d56b397cf939a9932abf3c2426ce168345a255fb5eca240d9b0fc7443f289;
  0x3e7911d997dfff3894e9d43610b478edf89f2545e15d1bf133c957099e7545bb;
  0x7ee1a6cc8d55935a46f3fd09f41e84d5b89c815cc53efc7ffcb15632aafeb8bc;
  0x9d8bdcc895d4d07a79ad60607f80108488e9ecce671bfbb494297942a9d0218f;
  0x1654bdfdd8d32bdb8d1b7fe3453ef5a815622ce1aebd4fedb51b21cfc7a087cb;
  0xcc0256ecb3d071ad8a3574f64600af31df4461d380f06c2787bfb0da302dcf29;
  0xe47980f3b8ca868d5e1004d3336b64b6e4bcd93223887683905f38d8a829b396;
  0x2483e5e309e3d5837c5ffc9f2cf993bd0f7871d14023209ccab0bcc4afc03e01;
  0x8ef828d7403877d03f875630f152e77d5923c2bd734e1e0e439cb737d4548e9d;
  0xf47c92d2b5385b07a43a46a766c56da36b37ac541bf22ed39d26ac3b62ce21d2;
  0xaee655732911b671d7c001220ccbdfc5159c62d9d287a1faf2ba24a668671cf3;
  0x795fb3ffcf0f253d9a707a53f08b3cab9bd65b9ad77cee68bcceb8ce60f0ea93;
  0xa6398fd4f3ee5c87ffa88ed67fca9fe5cccaafe649a89d11a0477c4df7fb66ad;
  0x79b45fdadeaf00ba6914b71ad9841f682404d552e1664e953db0e8b82d8d3cc5;
  0xf380fd5053910a20693bb95f59eb59e2bf883848efdd829b071f2147d658d042;
  0x6187faeccf482c226f9fd7c8fe1095406a5dfb9181d407ad2bce357fac3f938d;
  0x307930c9105acb44a8276169324002c094f1d3c220823ac2a75526f1d67fe913;
  0xb62ebf691f1dd4f8e3599ed5aea0ee1754a13b2f6f6db32368696e8b3af953b8;
  0xf6547aa4a9b9d8b38c4586d1a351eaa2c8f918e2421ff9eca509774464752850;
  0xacff4fa9ee26c032886f7ee458a1bae61fc13733e13bbf01ca5c632efbe42bc7;
  0x793c691c0142fd7f3c53345857818fe580e5d2b057793b48841e3f10d38ec439;
  0x90edfe2958539372c4c9546d0d1d6e5ea581ed536eb56e1b5b6293427b24f32d;
  0xcc45ad3b66c657f642e15e40154f92dae7ee9fd43374141a03113a764bf47cd4;
  0xb7cc73713610087aa2de1c16f549e6b31b00e199ff3ca99477bc996f88a9acc1;
  0xdd8192236b907d51ff8bb05c791c35080d5c4ce173cf7ca28645f6d35542779c;
  0xddc9d81f68dc375d3dfb377f6eedb6c2b062d526ba0a470ae6867f5747d5667d;
  0xbcc93b360f0205c433b35f44baa97a1597e5af27e2e23346a2e18c6aa1e14e14;
  0xc69d83b27674a05ebc03cfd775eb7b99c3beceb398700f6ff71cf9fec46e791f;
  0xe05387b1bc47405be11de91813633c66bca839b5b2b4606234eaa3d68cc48f17;
  0x5b4ae9a653235a16207f2dd1df4153598a6c208854fb7ed0c5b6bb32f46212a7;
  0xc7f96a108a52df28b8c6eea6f234df906ccb942134546a048a1c094820448531;
  0x8943eb007956669f0b2701f84bbc94beabf278253d8c2779d095a5254c0cce7d;
  0x41abf702c0d750ad2263c0738a62748134bd746daea31e626a7dee37946f381a;
  0xfc8d10b4b7b9f61655283f5f382f4fa6f55b6872d2a62e12777f3c843ccbd6eb;
  0x6217d25699158070a868a547feb4e8c5679b44d8ecbcee9f296befd21e37aadd;
  0x883bb3840d09098d9e19c41433b56d2c836959f9b486662ff57c5e09bef41ca3;
  0x037fa20887f4adb63dc02514d8152aa6ff6dce9842caa690ccab57b9793d59bf;
  0x847fd97452967b7cb03b52f6a4e4710c0bedb0f12ceb4b2ad3c84f3afcbc8f27;
  0x778b1e3545fa1daa348fedd049e1184a0879e941d6656e1d8b2b1ba50bfdea41;
  0xa24bd2d9133e297f5e7235ca13fbbeff9ac6c7fa7b0f5670ad43a0c2b78ec4fe;
  0x6bc0994b21d8049abccd685f180a16279040af8d014caeffdc208b5db523f8c7;
  0x07e3d3d657f2311467e78446577687db253e495020edf4bdd2d512937296d95e;
  0x8d1ae5068781c1f746b295e0b1db6749f3ab2ae12d0651e5337e754a1300766e;
  0x8476319f5d3a7092a708247f1fe2d6c4ddea8bc5eeaf2a1e24ff19b40afb3d30;
  0xf58e193be3aed6ddc7a475dd0962ffc6f395989afc9377abcecc0c4091c11efc;
  0x787b41c1e2cad083f64577fd86a6d02a213c00ced90d7827a12c47d0b9688296;
  0xf885775c4f1700db6b519bc360d7285cd87166964c6c00080f737deb7081e5e2;
  0x40b354501fe51913a9c0210f020fa536e6bae4e1fad04401e5a3a87c5f753968;
  0x5d4c0d5b91a7b138d4a5987d1d5cf103df0b1f5f94a978688a8b410924512f06;
  0xdfeb8b815bf93b37dae01ee5658eb93dcf8095e52bed6130bdf3d888692f7ccf;
  0x9f8b0ca3934fef829d7ea476138f48ff01638cad71f15b070371083e18a8918a;
  0x4294fa9a44dd246ab2e08ccdfefa34a6e24d791e8aff00bf42d9baac88e220df;
  0xb298e322df293aeb865846bfa8d308394b27dd18fae2b480d73bf62b701d8cd5;
  0x821e4c35d2b062d7e6f33d5e486a5de00eeafbbe7e8fb1959fead8cf84884de7;
  0xfcefc1d07132d2990b19823354e90881cd61209a23cd0f064a5e98c24cffcdb9;
  0xfe09fc61533f9ea494238fff50a2649072b955870baca8486c471902b5e38ac6;
  0xbfa0e0a2deba066238f1e32f2827eddb57d8e41c3fcea72434c1f6a3e657b669;
  0xf47af21c07d427c6fdf324169323d7138c8b0d600e9b8bf66975e2b98dabf3a4;
  0x7d6e9abf0c19f9c892b9be6aafced71543bf1dc897063e4f983a7165a43f88a8;
  0x1f6bd9e49f4ef9d884571defdc7cd4f3f0d3078c1b4dcfc9e0ebd5deaa9bcfd3;
  0x779743440102f0fbc2559e852e3699f12ef0bd71e91d6e1a9d291f5de4ef9f46;
  0x115065755c564626e1e6025d601ee7c759515147b232db968cc2be4298ceed4f;
  0x9512986ed043089728cee3dbfc03fd4277bfe4ca4b1fc4fe03b33064c2e0ef02;
  0x963ff9700ee8e2403c34cbaf1ce3106716412710c95c2b889ca80e45c9bd0c23;
  0x2af80c8f7c7b312725b0d786a13256e020b96396b78436023457b23eb283e9c7;
  0xac8307488e53603174223ebabc1c3ed48822f931bfd90cddf486611888f737f3;
  0x2b6d35bf557c05b081ad3fa64dc3fb51489ab8f0494cbeb2189e9e9901701f84;
  0x642b777dd6ae7745aa387c00bddd2a8082125dd88fc59924a85ad8b07458b149;
  0xaa8aaffe776c82fc3b86282b012bf17c04ad5a7f343c8fdc66de8d53ec50ddfb;
  0x556d873955b9e01e4986ac6970547fa5792d36de9f4587dc0fc126062c119d96;
  0xbbafb6ae47f32d4bae13143d3c04ee5cc896ac12d8acd3612883570c29bb241a;
  0xa40eeac04af3157adb3b410be48b12743daf658a646301c614330933cee2d869;
  0xfb550523f0dbd75a215466b8cdc0ef0c20d170f128e254b992fb17ec67891af7;
  0x16412676630a552aad99b8d3853ccfbe27d0a4e04754cdf770a1424e87e6092e;
  0x55f7152a6788d0a8365a3e34c9eea937b6e96baa109d8619a4f2268ce8711197;
  0x73da63779f58fcfadcf6301e47d0fe21595730ef8d714ffdaec506ee7666e231;
  0x4ac870ade69fc7fd749eb392e33f43af0112316432d67ebe76256942c1e81286;
  0xe194399844036a5bd363b5e11b1a4747187a93acb1145c5b7af7c41f8a53d0a0;
  0xc6bc27f13d853b726d7d7c63271aad54ada938382dd1fc1f7f56606221d30d07;
  0x13afac5e6132689c5306ec0da31136b9d20bddeed39514869421ebca86fba0f2;
  0x88c704d120be82e706ef748e8597b0be3b81016aa557ac1e00b0e058d9620fcd;
  0x9c5f6a8478012141fec67c716fa2d72695db71674213dcf63b007c7e25a25df3;
  0x1b2826a1607ab820dbce13f8669706e320032a402affa9f52a83ff1fced3019b;
  0xd626ce59fb290c8861f988963aa90fa51b3a8b987e366a83dd56932cbd08ada7;
  0x592148e132610b9ac762a196afa736505605f3811f9546a3c80598d1b7e93c04;
  0x3228a405cdcecaca8cebac69a4765d889c5bd32999bcbc2f6a43eb0c1b13403d;
  0x504f4c99daa5ae60430e1f045c0b04b67541ef94e4de1e18cef98e8d771593b2;
  0x67cbf1f60a810812726545545b6ba088cc8769d231f24a68abe99d9281f8d6bc;
  0x77fcf2f6ec962499d26f7f0eeb9798ee2b04b41f85c697fc506ed6c74a1bb9bf;
  0xf4b9e8970356f79fc6dd314b32e7582f7fc60707b7972e6b7878960d6b1599e1;
  0xbb284fbb5b2f2fde947663e3853bcbcf8247a69f84d9bef8624e2b225ad4dde5;
  0x548e0eb4cfba633c36ab4fb356eae7c3537fde7b450df365608ccb5f75df776a;
  0x52138bc258f18da115c808e27b83fe5076a2a1f078e641adb323e6fc1ac04709;
  0xab922b79e640e5e85fbe17e7b6acb9ef720e1f06a2a977970dd4ac1a899c0a5a;
  0x9eb6cbc71b892603d036a73749db81ebeb25cce97ea508f1fd54ae12e18136be;
  0x4b79a7ea96008b8eb14c669834cc5149de9e6f6a2aa6de88ee3dd98a0f5574be;
  0xc2af64a0e6010661229ec7757b22c8a35d37b45642f3f9bebe62ab2d07a5c955;
  0x235f7948343c070b772ab960e1f2a8e5c7260c7f60b34ed5943f4103dbaa44e0;
  0x3796f8d641970f0a0cf9dbdb1791c9e84cca675d1252d51377ff0a13943c202c;
  0x68d347ee7977cf825af0f009f29b08ce6c431e2805354a0ee605c9421f506407;
  0x288548128dfb64c643e00fbe1f84ae2e144bececc6ff8f1e4b9d4bb5ea7fcadd;
  0xd3e35902ae996425fd6976790fa82fbe6c466ca9198c6f754466f62e4ce396ff;
  0xb46e85919ca6ab51a2180b7637ceccc36d029ab809e356c7ea7f9ae072059f06;
  0x78ee51becd4efb75aabf26f0df3f227e41a87abc216b04a94a97c99bcb652762;
  0x03dbcd692bac412f5d349a18de9fba698d4c7b9f6049d0661fbc6e9414ebacbd;
  0x7f1a52bea877ab5fc1e71cc6a131048ffa1f7c0089349837dcb07734e62ea016;
  0xae6e2ab6da7f604f03382202d8d177c38428e50cd7e93ea5ee55a314d4231722;
  0xddd47ee5ea54989558de4efdf5b3254d6a3df2eb2094af68f1daa37c4cf568f7;
  0x87a2c4700e408f67a151bb67dd7cdc3566801035c1e4ac3f42e890b968178f3a;
  0x48ada7044b5376c781103095343258478361cc206ae23be2fc1b7414dbe20072;
  0xa181e417e18bee2daa2679bc7ea768905350e572bcec84b758337e313933f339;
  0xe3dfd382fe62d18e915e35049f6e4ac38e6d809c393d3cef1fa146e2c904e559;
  0x555b50a0512ebecad8c36feb272c9077002d3dbe100f234a61ab5890ef9ec9fb;
  0xa4c298d94161d68f21a9032d8ed5a85707aad08615cae3cbff45805722e8673b;
  0xfb8b778841e2dd13751e72e8361c755555b208cf7b4b952980cf29a5ca7443a4;
  0x03f9f664ee3180a889d0875b7fb4b7dbf446c378c4115fe58e16ab6dd95ed471;
  0x586c5778c0714dbf2020f55b8133baad41dc65d76445166e66d2cc5ef7523322;
  0x46d6ffd1bc2fe8427c9ebe66b675eff142840aae27e8ac566ea6c227ded82bec;
  0x2200ecc961e65afd881fdb38b0f55179ac0560b1cdbf8ee20d6d448a3c9c9288;
  0xefeb7f3feaa0e68ff0a3598b6c91723350aeae09686b5cd6dce4cf803997cf45;
  0x9962455afa801e8da64fce8ea3b17ee3c35bad17ee2297382c06582bb54377f8;
  0x36cbe667764d6c558d6a71c635c846af050278581c5dc5e0c3b1b85414a14d65;
  0x9c31fcbe3381cc0f6d3f3b918e085532ac7ca6c32ab69a656549b9b0aa075fff;
  0x730f52814aee2d2510d4de0f5dd5f7e14a48c2a53f8d067d92d55ee57ffc6a8c;
  0x63fe0d6d794152be3127ba25f88899da1cbfea0fcf0347940d93a36fc1995653;
  0x38bc0b610960c51208250f8157bf782ff657c7ce98a0e9b477f8a966e36c6679;
  0x1a8e10d3b9c2d0ebc8a1ef95f0b66f4ecb40fd0aff76ceca51fc7e94eef150d1;
  0x2267ec5531a1312acee304209d766f696c932313ab55061d0292422911a19fec;
  0x9106dd9e5940668c43d64120e1575b0fe6ad23f176e0a4c708f1fda22b098c5f;
  0x9419842c984870e9941ee2b353d3f6f0b01123708ee03d85eedea4db3fa6f392;
  0x437ed5ddd0e8ab57445b515d54fb62ae929cee85619275a7f0d343dc39f39766;
  0x662feefbbbaa05afdafb7ef650c64af525f2e22048852f8bba33df3b693be527;
  0x08f8f39dcba9895345281a09f6b3e6a5fa9246c3b407cbdc6e87221d20bcaaba;
  0x9db6306f4fa4586fa2daf0a6927a97b7aa0d07428e72f93c3bc0c6475a469327;
  0xc9678adb5919c425fcb2cf8c34649e75784c1229f0f1b504b6efbab5883b4ed3;
  0x68a0d7fee40fb02010921cd16e1dfa48dd4c5b48e9babd2bf8c068b8ebc52e5f;
  0xb2e9f03758a87ec50ade24a2e33ccbdb9676395dfaea53c7074a33525fbb2c5b;
  0xccb732a39582a75e47a9b7f197ff0e89c76c614ba4554fa6df479dc66e0abb7b;
  0xe02ea25517dcfbf1af0e5879edee7f9c38ea54693e3210feca7ff110cae52836;
  0x5dc3beb057e7bd07a3cafedd6ee5c644a173dc3acd2c5d2a924d196d13509aa9;
  0xd87064b0a2aefed6e91303a9452835703e86efbafdf84615d13ac9333f113c1b;
  0xa8dbaf116a499b6d5ad016ce7675a8ea445d291ef638e61966f681a60fc2af13;
  0xbc082ca166d826a3774149dcd4597b2788ff9aa0b515f12d5d9417dcc914fa7c;
  0xa851d28d70382ecda856d8f6bc920d102d24b82164431949e3d8eaf1b66c7f34;
  0x1fb2942aa324d5e2d1f8e432d811dc64ed2e2f58c29d02b924984df8ecc6f5e6;
  0x343b958e7a66c0269e67bc8864a87735587a9e9f2170bcc90ea048d9ca36c47c;
  0x01978b3246884184018fdc0d5cb6d8a2f13422086cac9fc9647136750a816a1b;
  0xcc3b42f4a459bbaa33be34baecea28b8266a4f19f55a70d79532ac3a47abd3e6;
  0xf369625f04469d0827e0f718b5563d7a605ba27276b13e0a4714f8174b378ba1;
  0xf6a0e63a3c30106a0150e6426d484c73a7ab7d29a590e8dc17dfdc6de4f2d6fb;
  0x7cea2ec78f27a90ce6b386ff3d0b4feb85f55316941dbbe59f7daa755aa9cff2;
  0xfbaa1cc970a95c5c0131b601a538a3c2b1fef83752205770c61e21a634250eca;
  0x146e160fdfa4a303fc1daac18101120c68e3d06cd0b9c2d8e39066c00aa105ea;
  0xf90eceee0389297a7a2882c840f38ab488f815f2937f984eab183649701525a2;
  0xdd53192d3a6cbaf766cc2ba49466db685143e92da2931bbf7f7e35d72f3bec6b;
  0x00b0ebcd2f6793c5e44cd44f076973b9c55bdb2b4084c96ec68cce36d5e09a29;
  0xa966a5e42b9f0a3f2be1e752c282d9cf2769d69736890ae4f54d5db7d12303c6;
  0x2cabebe5ac01308785a5a207b3b2c12fda18b600880b1fdcf2cdc9e2e831a081;
  0xd0d9d7a41a7d88cb18bce4249a4775207e170d0a348fb77f7cb8c55323df4bb0;
  0xa4dfe80af642a09e19bc29f7269f7317357a1f9c9b3d924469190c69c71b47f6;
  0xcc21c2f2bcd82ffb59b2b396b678a0f62f01b1d9f4f83bf6b5a6a5c20a88d4d1;
  0x0a3aa6a62af8720be4b0922a3f621207accc4e56a1a0b4a0ccc8625be110b9fb;
  0x7732278b3d8c5c32586806caffe2691dec61e9f0cc388f7f9a2836cf15ba7693;
  0x7acf29dd4836ae211881ed6e6f7e441b241569fcfe940afa168c8d4a419d9d89;
  0x6b4a558c8ff7057f4df94414bc60284a3dd75c57d2d65a4b45f61246ee8eae47;
  0x29ef9b780e0a213fd814631ca7805e300764d504a390c5d55e2a764dd927e06a;
  0x0cc7e282a6f5d15c202319731cf3a61a8b4736b6690ef6a51d252d2d865612f8;
  0x041a8411565b399ae0a9182ba75b1e4207c09db5fa5ab01681f1fcac1e510449;
  0x9d4e085117901a2bc89eb344c1bfb10d9e3c4b754ea060322fca37195b5e8c3e;
  0xae3dceb64d3a19479a99a72e18d343cff537a6ed68d4a4b655732c23c0f52665;
  0x863ed619b1be609b7d851310c941a671aff15227b6f64739522528ad10491a36;
  0xb49a421a8f906602146f50a20f56338af071aa4b10408c181b837e6f0c2bd694;
  0x7b1abac2f85a6b557cba7b984c99860f4b8c505b864e903acfce1f2c917dc32a;
  0xbc06ece11ece6548fd7ce357ebd92aa13a1c99dce2cf3f6ad8fa5093fa8eb612;
  0x71a7ecce6ac173ebbe75bd0271d5882662767e654717ec5d8cb6b00d07455d49;
  0xe4fbced96d3fae4f3a082d692870b73d93c5498cbb4ae770fe0b9c343b345774;
  0x0c3d05de67cc0276961b2546637fce5f2998ea3ba6d3a05012c44ade27a19737;
  0x16eb28f85cb12c763abacd9d3919f77730dbebc3b80f401dfe64132fb7097875;
  0x23b398487be8f79e26bf22d0283c385a4979d9f767bcef6b7b3b6cd291648d1c;
  0xca6f07fe029be62f0f3cc4cb09cb14f46c84d16e124589a96dc2fc8077aba57a;
  0x69abb0306d44dd9e9cc22ac23a5a137603cfa9aba85e9d1589d2848402235f49;
  0x162decc0beb383182a8ae1c35672a25e6c8c61fc301fdacc1814ef927462e14d;
  0xe8c4daaa0d713bc61e7af16e2ae480a2dd3c174330cd1360809f89e73508cb4f;
  0xdbe356b986e0317be3ffaedca6636fdbf77cda2fc0ce099545d5f5040c22e600;
  0xc73f6e4d00c4f51d480c4b9d09a01a6d9517fac966ab71895791ec1e5b6a09ef;
  0xbc2a5bb1443aa59924edfb6092008701173c2ade6f733ec91d7cef3c0998152e;
  0x5aeb6feff970cd4ea5b3572b4ba2a6d94714f7e44724a2381e7e13048c0768eb;
  0x7fd9333bd718a3fa4d9a6588025f13a365cdf2acc33676354848b88eb7148912;
  0x1d135139ff60895678f9b0a770a6bd6304b9101f76d8e53107cc2234e2d6a384;
  0x8a1d12b26564c568e12e636be7488345b8a01a632fac8f55b5570e66bcbbe6f3;
  0x40b6d1425496a4afaf9aeae8386b375546f9919a861b45ec537e559bce5b1a7f;
  0xb4dd504fa40663232af12f5e59b7468003eb7e87cfb39ce601ac82e9b72d1be7;
  0x71523207fe004f193342db955018d86b922fc7478956b33d67235a35b62ed062;
  0x306eb625c984f0e96865f345d219ed1ffded0c2a5035ef9b2425ae3e00ba5ad7;
  0x12c3ca5cf73032404d682b053079fea0931e1a99525c12c1b97b8d0a6efb8ea9;
  0x0ca86a81809da2b5f89453a2e4c08e93d3009ab4e3d283a52e2a48f1e1024951;
  0x51e2d410c5688ff8d9001be9140bea13ec1ec6b650447a57fece7c84ca2324cc;
  0xeb117dcf2a8a37721e206a2566b522afb394499d08e65fa8218c0d96cc370a25;
  0xd9b68a9a4af516f206ca42a71ee883fd06c65fa54e0311e7fdd054e15216b62a;
  0xe23db82a858dd5c0ffa4acf3b7fd1aaf7c26691f75da3ccc6be40b87283ae058;
  0xa774a4ae56e5a582b8496710d0bf0ff082ef2b22fa96dfbb4b0392b0b0f9b8bf;
  0xa485f88526febe23503f7a1939e04935e94f7a8ab901fc91347af113bf208526;
  0xa961f3d19633c72d760876c3d975355a87f2052375e052ad907d01c0b3c09706;
  0x82dd092d5d15a92482e6cf80e4a3be3accc4d97603d3a922c274e9088b6a0d40;
  0xb80d4971414735015f30e8156ddd8067fe994acfab2fdf211a1e43e5e922ceff;
  0x4981bbfd792b0b3e4564799417263d914ceb90ea9d77b21a5e189ba9ae1d1e6f;
  0x5ba781b199e7699a834c585f0ba5853dc8fd7245a7bb616c913f1fef3fea48db;
  0x85eaf9a98a7d54c458deb89ca56e183b3ef6b0ac244886ee295d01ce1c5dea41;
  0xf8370b5a1369dd6398e4de5c1c3c3bf649489ae737d4524be9c669308f823340;
  0xbd0319ca1b76379670e9ee30d303b3dbbeb32d1d77b380f4b514e0ddf7cd29d2;
  0x8f45a2dfe70f940e8f53ec45c2db884a11727a4f6f79fdfc9e56d87b6a31416c;
  0x75ccbe1b1ff108e3c583ac44e2f018ed5dafa05ba5b572791682e4479a0ccc0d;
  0x82698e23133c19cf8f10283cf007687d2a5245e5cc158d9f64307188337c70ca;
  0x7aa1efb18e05f274c65bdd8deb2f8c8e464b82eaad405e188bb003a801b05b9b;
  0x5db78792bf529b7eb893f42ae9d035dd5f956457db8385dbca0f517e7c56e33b;
  0x3cf01dbcc9186f7874944bae3d081a0bf2e1b462854ffedbd1bf7274b1013b79;
  0x879de268e55bf84595642cc3329c25aa29e46dbf7678387f91575be5f50ee29d;
  0xedd4bac664994af93b975ba7dc738a88ef222e408e219dde625e584f5f6a9f79;
  0x75229ded72b482aecc27624be4d13009f98348d61ab56204d6951ab611532c6f;
  0x2ac6cd47e3b4b681115f90cc0e0aef53fdb70399fcb8be8eaed83adb1d8041d5;
  0xd5c6332ab0023f305b4a25309372e9296115cfc7511d936ea7061cd9d6439b99;
  0x7bced6589484594699ed9676da997531ae120ef210c2e21364dff3a5cff42975;
  0x417881e93c45ba5e903bc66266865a4d618c35fb203c031a2ff091f55a0aebdd;
  0xee9b7fc9d446d36c1114a81bb1eb00c2b76c176a40bf445e6418d671c41e2eeb;
  0x6cb25f388d3151e66403f9edbce900022a69ca3d2d1c67d571552869a70a2993;
  0xbb5e8cf512fb52843c43b8395bb16d64aa327e1ae666dd8d2df62f49727610e8;
  0xb622518c9d51aabe4a5271557e9c611cc4e52f24471b932816c2386a44fb8465;
  0xe54f6292d63005721e5394a23510cfc0e39051b05b73c9913b983b21637dafa5;
  0xd8d3c0ccc4107cd6e1d0872384c303ac17c986cb3018ffe18477ada51ff4e985;
  0xa95b6e541d4a58050f52f1a006ddd228b4b3cd7fe358c79587e79693d18d21ba;
  0x5acbb7666a6d14afc7d978209449f5d30b2f6a617fd96f217d253560d53763e7;
  0xfb0dd2c5cdeb3f3074b77a411e351fffc1fa742395ac3c0675352e2ad0245209;
  0xfeac6974d7e4bd8ae9c8a70781fd7d1ff8e2baa8b52331ac712884ab53200de5;
  0xac1cd9691ddde47d56185b16d2e30cd71f4afc7bcf67541da0406e001e1deadd;
  0x5703cfa9cd6be9f8fb246f702f1ec9e4545f297c59538301555f20945128c19d;
  0x6d283e5f7e66280810de31947e053f989971c9245d13343f4a7c758ee6c042e8;
  0x2660583690b9e2318fe31256c39bb5ec58794c8606334a4baea5a760d2da23de;
  0x379123ae3f71a7adb161d4e40b49996f1a0f26f9b0b1db6d5fc9a2838c238eda;
  0x7ce91902985428b3d4358838f26dd381822c133cd03ab094c42f24d5f3ab2d80;
  0x32daa842d5481e4847f6f575ba8dba3f0499216bf21818fb7c73d2849b1ffed7;
  0x61a9154cc1f63d09f66382eeba7f80915a06f780fc7dad4c192515a13b3727d4;
  0x76f6b2f705a19a7ba46dd46c71a1ac3029b3240bfcab23e66546a5c2367a36da;
  0x23cdab204efe503cc117b72f901ef97d0fc8636aa69bfb3b30602b2707aa7b8a;
  0x2b4b960377bb68557a5d1499811562e31c6fc2e5fcd15a27c8d7f691aaa10010;
  0x11951e601df65cfcc80101f64906b3d4dd5e0a5fb2929ccac345685d895cfab0;
  0x6a9b46090862c646013afa31670aab4cce9ebbe9e76815d64ff107ea11b52f81;
  0xcdbcade800f796dadfdadcac2714a53f2a6dd6d9d05a2d60d6cb950b479279b3;
  0xb522ea7a76442335f99594365029d26f334aad2ec5a79b12fe29ca08ce6ca5e6;
  0x46140dd8f686ddc101629d186f608e75fb73eec1f4ceb12e2756a68d49c32932;
  0x60e6df1ad88c7e2ad75f464909044f04b28df6d909a9a5fed07b1227a066fa25;
  0x2a1f0e62c39d9bb307ee07935714cf5234bef2cdbad4888c85fb035bf676188a;
  0xa85e0520a80fadea08caf82342d79ac382ac882ad00cea56e437ca838791ed12;
  0x7a788c357d6270ab7f6672b6bcf54bb87e472b38ade23d893d4e247cf646f543;
  0x68f540c72200d81aa57c06067429bac8a371ccac33e9fd901101c5b0ef17267c;
  0x98fcd4c5fc5b6561adfe33898977479670745313aded1d4d8cf1960bf9577b85;
  0x6923dd8f3a0b2bed214d94072f50b8b532e8905a054d01e42ea4332bd77307ae;
  0xc86d49ce72dff53191c5b566790b67ea4cf93a73fe90ef978f082c5e0eb6ec21;
  0xf155b6ef4d2bb48d99b3fc881e4f4062d673c53c1f9b4ca5a019d5b237e7f8e8;
  0x40d373bc68019f15952e715626eb3874fe14b3fd83fdd7a5ada9766ddbf2018f;
  0xe76713351afc73dfbffc3c42ba70378fae0e65d87294485ad13aa122351574ef;
  0xc9aa650a67c14832bc2a346fdd5b10644e1ee15b403e1c866cabeb6d8e809c3d;
  0x8181a51f678758642dbb7b35019dc6a4e1eb4357ebde2061a05c220f4fe015dd;
  0xfcfc5be0fb6fc5a25963fcbfe58ea4dc2b05ffca5f75c1ac93f4d10427f034d8;
  0xc6164b6e20e5d7bc3ce09aec02bac2eb930bbf8baea801a12ad5bdcb7b7f149c;
  0x1f4accf5c8f25f9e24d6cb13a944b23d4b0da2e39a244cbc6af627cb70601f16;
  0x95ab38ece262d1068642830f62f12db66494f9a1955df354deaf243ce3ee06cf;
  0xa44ca09f3223850945fa940373f157e80fdba901adbd264c96d59630d45af467;
  0x086ab9a31a92bc511d35a1497e1f395e3a50642302983349708ec850c2e4a0e5;
  0xae9757dd96e1ed6fa69f41fa0c1643752897c3282647f5b6e1ed57924de030ea;
  0x20301e824e919095461dbbd47c2042fb5d80ceb3c4ea63616a2389468595b6eb;
  0x4b975b19b4bb5011ccf5e79c41c46dc2dff5d1ae496b87107d79e9af5709afb6;
  0x75ddcc3218b7d1871338e9d16977a3c07af0de2fad502447a6b8dac814f05684;
  0xfbc39ec5d0376c3c8f666759dd79f1043e8e3d5c0dae44075f481687f88f1b9f;
  0x4569a2d9d32fcd183649fc419a87ad56a388b8ff97ebe7e9b3d7ee383ece352b;
  0xfa2c9c8ccfe33d0e2ab39efb47e67a790e8d1d241efa3b78f763908cbcbbe961;
  0xcd25cd11c9416d7683140812dfbd8621088a5b35cf5db4da17f28eec6e92ba24;
  0xa889095b5c70f37ba720f2dc023244b8ab6869c4bcb048d60d1e3300d732d6d0;
  0xa37446fa09dfba1f55a1d11fc9914cc83206fc2b03f389f6a88eed9638cb1ba1;
  0xdb32a576a7d082402cdcecb9cfc4af82e1ba4f4dd1e5fa5db14d73c0cf1feae4;
  0x74283be933b25fb3dd7b23a33bda59c41ba18c2c3dbe83f1040d50d830d1dc1a;
  0xb4c127351a61728057ef55f7a9371c28541ae0df5b911edac837649aa4a3ae8b;
  0xe75f02bd10b59f110df0154e44f56cfef63b0f2f3a61df58d9873788b052ec0a;
  0x1e47b7cfc8030c6142e800b1e9c1e790c2e32ab7d5998b6d76b59ceb69f3f08c;
  0xe503460dec83bad2c58d73eb1cf43a49f254a74e68388afd91490304e4814db6;
  0x46556b9e1de94d73327b0331e83abe0ae8a27152a3406cb336fd150b7763a2a3;
  0x1936600c17cb71133c7e81232ee39179f879eca8c672cb47440fb8d0251c1773;
  0x69871062843d84b2e4e8c6f938ec72e899ef80f2a5538dd6c32313c5743c367f;
  0xe6f996c3f14e8759bf585b350e933a08c7846afcb4410f71017929941cc30293;
  0x814ea576b8c48a0cde64324e6053c19da4a4572d63e582d0e535417dc39128f8;
  0x81720bef5ba8c739fb4bf709c1a40bca56405ff0fb9208d257e7a0d6c08bc9ec;
  0x22e4a7a7c4206dcafceaccc6a65c18f5977192ab285e05498534f8ac8e51fcc2;
  0xa5e1f89b5e03f9bac9392c2a5aff3b8a2c0ca798c487389e104a38d2e196788a;
  0x68532098337b63b0ab78a504876ad2d3e90b0be7c7829cbad4c8201201bbd5d8;
  0x5ab90f85effb78fe34439056b65d6e058482dd057992435446382047ced4739c;
  0xc9a1e7a7e4e24e4a11773ef3be5d4a59e5692b606d79ce7757e802fa93379bba;
  0xfc07d7003697841d1193e89a0af9712ea225eedf3a472f6c8edd9ee7fdfb679c;
  0xa07c2c7766f39d3a503652c96b06d96123fd10bc7862f6bc4d8e1d75595b7763;
  0xcf32eaf38ac7e9c071223d1689ec448c986a2a87e99c464246563f98249c48a3;
  0xa950d0f572a04b38366fd2923a599904b6a79de4ab6b2441e0f50382101fdbd7;
  0x630ca7400735a08add13d017ad88224431f03403b533c3dfbb41e97274fd2566;
  0x4ad6bf42d76d9ba97a90b60ce6ff5bac84b23fd043e2c34a089164b4e264ec33;
  0x5e821b036e1cef17b37bae36d5e9d75a4386631fea3637332ecabaa2467e7d38;
  0xbc4165a17dce879570ab33a3ab5631fc1b9fbf4a9e9df30bf9c7f03df4f13099;
  0x54dd48964da4a8a8faad2a6baacf4db0fea45e1772e8468c2671323836943142;
  0x076183e6db76b18e441f5495067da2623062e7bc7a4cf1b03f12cbe470c804bd;
  0xe5fdd3085f928987eca99daa0adf1f20f3c76558a090761f83ebab0915e1211b;
  0x2f744b3630bfa06ef411d6381c465a7ee784cc76209b9cb1c4b7bf9bf2245ca6;
  0x42d9a0636873f2aa1f88c8a3379e8fcba7ef6a8caabbefabe4ef61020c266d6b;
  0x490d8498fe06a3ab9e79a75a765ffae13f3a773f2a9937149f7c87f4dfc56f81;
  0xffb0981bd1286c5088686010866bb5e17eb3df2904b31f74895ec41c6b7ed7e3;
  0x4bef7801f2255bbafd6f61a268d633f3b36ae01ee44f67511325bfa187e0a8e4;
  0x927c16ed8e340055ca1e51e27b8f7e42edd9ad05b5e84853c62e752e8d9296d2;
  0x02e2b662bb5ac9a4e278c04b516e8b27cba93af084fd0eb0a62b674bd9dfbe40;
  0x951120bf0206f78eb3a38a14cbc1b69b73c078d6a0f1b19d968fab70697d18ed;
  0x50faf44bab5453bb7532f04f85488ed35e71e879128780c42bd3d58878ab26ef;
  0xe5302976ad89395e9cc2cde1f3e499821d8dbec7416e21a786c976bf02b1bf0a;
  0xbcf38db8c02801fb9a9cedccb3fdc72beee6fe868f3635a570b9d966d44f5b86;
  0x181bda781c93c2f73c16f2bb85ed0de8fd6a55b7f239c4d159f599c658815b23;
  0xfb36230525b44e1a33e5546a755c9d2d101502ae7edee059f92e1aad59f188b4;
  0xf7dca43fd392422478d39ea86ff5dd3622afe49fe56e85b509576ef17be6568c;
  0xf9905cb8d47256c5ab7e30f037d59876bf28b54a80a8985ffc532f2f897f111c;
  0x92f6372e10e6fc69d3e11abc6847dd0952b556d1317c9c11121e8f2ed94f5b1a;
  0x42a6e960ba1dceb82162789f7fedcaffcb4413dc9b56f1d0f5a02f9a73efb019;
  0x6f7caf18236c57697a53909d22b10cea25ce62133611557f333fb712e232f286;
  0xb60e3c1d30082b8a66e41c4829f65553dc0dce8162bbfdaac197fb98d0c9d391;
  0x22bdf1abc9357361aed7a14a5e7f8a51fc2dbe78d91075b14ff25a27cdb4b365;
  0x2a34fe39b4ad131a88b9468fbf944fb6f38353e8c7870810dbe6dda0711d8af0;
  0x45b831ae1693a4710c394ead677c8181831b3c545e563517487ede5fcae80bf8;
  0x2fcfd0bed35c11baadbb21b5a62047bdebcac8ecc710d05cb5a87b1b34c2e590;
  0xa1751e207aefc12f166dc9e7d8eb49f900bd05929f485263ac502fa60c92e2a0;
  0x0f025aaaf299d1b5bd48844d549d5cda060bb8f4cd5d363070946eb2a0c67afa;
  0x0c7148d5a73997ffc8d78b0e3f429d26394b9ccce8535c3d3131c3c53b452617;
  0x411339fae0fd500cd16860412461407bce66028c600828556fcbea09800fcd26;
  0xd4fe8dc94fb37a9c23f3029e7c4e4727e75ccf7f30f43cb00162aa273b63baa5;
  0x9a37bfbb0bc2f59dfe678e0c76d9ca665f1890778447e8a161fb2798100f56cd;
  0xa7236471062b799670ff22c447cc3018f7a22b7404228a0e45f020cc259674f3;
  0x4f88ee5ad3361ce811e7f307e88aefea11d2682fd6ecb2a92a75ce4dce100222;
  0x7bfd5dccfc10e0b95577b618b6dc53cdba2bc75bd33402ca3a59d2f463d359eb;
  0x4fa6b1752255af02560bb780dcdcfbe498b41739ca6f79c43ade2f5e36df021d;
  0x7a3b4ed71c81f07c14a616160362a33f592b519dc484e0b58a9b06120fb47daf;
  0xcd08b4fe9380b0c8678f6ee5d26338489ead2f622eec15450fc2db837d700eed;
  0xd041ce2bcc9da30c6f26c20861a4fd02205076958a005094b7fe4d0c2bef9976;
  0xb3cc5b03a1cea9c811127c657eb388b9ee2934ecb0378c67b68e2ae6eff6f64a;
  0x948927c6cf11d419bdb668e65586bc046cedc20c1f9c905e3938f5b3694b1a8f;
  0x01c83398e44dd7f227cf3446a862052335971eb2af4456e5c3a3c81ee261ed40;
  0x116d446bf5988876f467c26c85d91de01674ff0fba967dcd0b35b50084e3edb0;
  0x07369eca47e5009c2f5df6f7448d7ed611ad950da3e3324585248adf653c65c0;
  0xaabad9fce9dc3821e984ba2ff0e45c08ca2efcc3b8a95c6c5891cd574093798b;
  0xd44f43bb3bfb8ad81b13c8ba5dbc6f8b0c3c7cc528ed3a0cc0bb2adb90692276;
  0x85dc03f57adf56f0b90fd51513988f9ff34c9b1dfb2ce1f06894e25a15333e07;
  0x3e452dab3aeda8bfa19ff997d69b4d09bd243e05f2dcaf9affdd17bdf1242095;
  0x95b0d32c6f6d8dd22902550df3700f62d95a9efb399d165b91ea966fca0491cb;
  0x1c485701af8daa89ec60b87f2a19ddc74a01cf7dde8debd3aa4b0b658fc339ac;
  0x7beae8d0da4b1c59ea09e8dd60e674e8726aa2030ad4fc96482645bd7a5aa512;
  0xb9cbde5722c6476263e3b6b6b0779f9979592060ef78876d2f964651cf8467db;
  0x6b75eb41ea563395f03d85227d43c6af652efe31b4af98fa03c71786dfc636e4;
  0xaacdfaf8c6158d24489b29904b91d359b0a9ab5f1cc2c7d2b3d35384eb4c388c;
  0xba1ef1e18eebc341b52713f803bf7e1b24a0c08ad7861f4d037442be2554b1be;
  0x1b65f604c7bbcc174073c59134db5d8cc806611781a112526bf86ed7733a54b6;
  0xe5e1b961fd3236246182393d57e3a00b078fb26c569303e118b11ed6672f141e;
  0x3afdd3260dc15d466c7bb6fa9ba098a33bca75f53e21306647b0af47baa48d26;
  0x823c4d73b2cb713cc1b6323dbda352ca4e3bc6079233e7bdde25de569b607ee6;
  0x6fb962c9db4818030ae54cb2318018f47bec21d673d94185f6c628f40561a50e;
  0xc669377a681604c66ab90b05259a2f566f0bd4e7176f55743634b39e5cee0771;
  0xcded57d015ad57d8255cfe97f8efd62c66902bf52350b4ba422e6978afe41a99;
  0x332bb0d526d07b3d91e3e43cbdc8edde958eaf8500703e0c427be930a0095692;
  0x785310169ce8586dfd64cedd349d7bb649af4fcde9e07289a76046dba61ea4bf;
  0x4fcd3619315a5d786d2f8ce762bce83e05ccd197192abd8997c1cd8a89eb4850;
  0xab69cd2a8ea543c420473d9585a6a4eb073a3c3ccf4086d127e470cfa42579ab;
  0xa594fc429c323b7dff2357985e605289da79c3aa8ab56eb252e4fd77cf52bf58;
  0x8e56441e5bd3cbb4830343ca875fdd0ba355abc34f5ae7a9b6d1624ce1a8e760;
  0x8fab2daaa53ea9a842f59dff02d5b9833a6bbe6f76d82e5f19b60d968d1850c4;
  0x35bbe24bb97e4ae5282b6c16cba6d5198cbf86d59da0e88b9c0c0b9da41ded80;
  0x6baf0a0747d7d522e04f0dae4b1e4557e905c9cdc2649ccbe898e5fec9429214;
  0x4a808e603098b9b8b9af53ed25f1ede6c89fc9f68bb4fe9ec520e4ba545f0f12;
  0xe349df0083e535342a6a212c83c8f5d3c42ac1d27c08f52db18d25807f29213e;
  0xe6d577f40c0e4992586da6a34885c39257e068e261b07fbaf73907118731692f;
  0x179a2ba131b028b0fe3a3d37bf3b52fa649a8c846f4abad53e44e083285a2f39;
  0x528e9efc2abee8eaa2f194761fb3a1fec1c891b57c4381a3b2ab05c101b54f5e;
  0x6fb2dddfef1d797741c2a873c8dbf7b0685e459338fbe9b64820035df41d7c5b;
  0x5bd1e8bd92680cc3930be3d018a0adce2bb6ad7adec466baece25ef0f7eb4e4b;
  0x3440e8852e7a3032cef738142f3d1945ec737af2d44c9018ee4cf2aac8d19247;
  0xd8ff51beadf7bfe69fb84caf91af68bb74b160bd03e0f7f4eb55e31b8f783552;
  0xe52edd9c501d18ebe019ecbe160f9557362ee4db19201a6710b0255ce08cc47a;
  0x752bdaf3a49b201df7c5361b768aca83aeb8af0de2bc5236b7baa9798ac8e2df;
  0xbb88148aef0ccf8dc19b9d9128cc38cd16d74146d884c7ae00dd4526b143c213;
  0xc9bd1a817ec72c9d88b82aa5260defdaed1ba45aa6ec8d6a9501474a424ba4b0;
  0x5fa6f16ed87e034fbc9a31bed00f327cda31cbf4f71ccbf18322dbb07f00012e;
  0x1330038d544eff8f4dccefa54710321f4c2db5f6b43f921caf78ecd8ac49b16f;
  0x370d3862ada6d9e2f8ca3d44cb565e21f042a1a9416273955e9eef5919c70677;
  0xbb4ea61cf90228b37bcc8329924f521cc62eda5e0d98649a0672051d19d2c4d8;
  0x4abf47b9d61fa9145e0e34b5d8ea40f99aec0551e854984091230a6a33e6b841;
  0x7e23fcbcf9a0c0e476d97db08bf17a668a4ba46cc888ff4fcd280258a4c36177;
  0xf815923b1525a172c4093c837250862da72f23953e4c69c292329d6e7063acc0;
  0xebfc3dc41d9f1caf9b63a9471d4319f613b939f8aef094364f95e2411efbe342;
  0x556cadabef6d684b2e7e0f8db64e9ecd234b26e13f6f6d295df0aad6fc4f8899;
  0x51b680ae497bda2c13665b992f8763934f2431623a84acbdc03768421dc882c9;
  0xd13be3cbf7f835b1f545ad8f351a7e5518d87363359535c6dd3653a03e34e73c;
  0x49d1799f9af33669b1488dd9f4bb93bfba60ee25098f25e07f83b6f08c265767;
  0x74ab8a9e66b4cf08f74e30d8533d437cb876b4c41ae8d9a8ca6fb0de0f864800;
  0xcd748601852adc30db06c8c20a607a597a58d6cedc540c81bfc394b1f2629b14;
  0xb73e4d172429821c5e7d2038cee308a8564d3f135f8f847720d805f73122c3df;
  0xc2b714c0b211883fa53ccf785ac9dbc0c825cc68bc7d49bcb33a87af07c985f0;
  0xc9cf7ad77a01c5b011442ae0ee43b6857b9f75ecb0c27b8a2ccc74c66dd20b16;
  0x312b6309e3034e22a970772f1fb46ff2093cd58c611f48450cbbde7f5679ab34;
  0x2c3ce1b557030a0cce9112696937833a06bbea5cd0a21b0695d05ba399543ad9;
  0x80f9c7919e4e89b62e15f9b8852384f3dda5f82ecb606eb3ee8b131386fc3a5c;
  0x048ac3dd85ada0d2eacdf7da602083b67ceb1d2941a15f8be10fc71ac53d456c;
  0x411d9639e12ec2d7955a96e018b3335c411d8378a5c909b20940ad58c09db364;
  0x61ba447b6f6dfca52fa3c16888a84d061fd7d6bab96fc2df99deb78e81d8f408;
  0xa84a25b98bc6533e20b0f21986b58c6284ffa7eabed12e4fcd1bc1b3a2bd8ea2;
  0x997dbf66de0495e9afdd43cd4590e924c746ee3e658ee5a37bafe9341d1f186e;
  0x2e29f7d5434fcd21c20b00e37b742c3e3877e547469d0562203ebaa81043641b].
(** algorithm_test.go:867-1576 *)
Definition test_items : list (N * list N) := [
  (0x00206112, words [
    0xc286fcda8ec1fdce970e8ff0cfc9f033c0a21f04373e99a909e32925cf502980;
    0xf94c98eb87b86fd2140bc520889ac4a572b604383b383853ae91d2cfbadb4df2;
    0x946658c5ae390b0f32e8df6bc9bf2dccbfdbf2796a0ebb2117e979403eeff795;
    0x3bbcf589ebf02e68cba51b38797362c107d798b593a7cfaad04c653963b523c9;
    0xb75425cb412d1868f02485d10861edbc10a9200555818378b9d94de27871190b;
    0xc273c61c3544c17af450bedc56ec5d7df527f2c839015c627169d88ed4322170;
    0x758d3ee80c93b0003366e81325e5f2a57d9d8c4e45d4ca4d11236c6133b08513;
    0x4353b8b6c4f3d019c1ebf4edc82af25eca00e812a0e246b1be1d2dbb1d173510]);
  (0x001ca704, words [
    0xdc780f8b9e4471746d1edcaa5017398cf9c74a6cc9143c492d3ce4dc135b9668;
    0x94299b6334f607ce950591d54fcf7ae19623d071992d74a1c4f36db9d9d132bd;
    0xa800fdbc533a507be8d1086819fcd1556988a5a399d46aa667e00fc6839195ca;
    0x9395fb55d23d0baabdc0f5a0e06deabf9ca4ca34a7e0960b894258b7ec6a6425;
    0xd541dea4e3dc56fc7cf5b8ccff917631896418a36cc6fae5f084856612c2c818;
    0x5303a78e012c317baabf0083f439df79e215ca25288b9ae736ce0fda66261719;
    0xc5bfe728cf8824cf41c86c1929477d45e95cdaa893a13300a57b42416ea7dce4;
    0xfe5eb067430a094a6abd045e98d7d10975d111dedebbcf995c44b14e7e423603]);
  (0x000f8392, words [
    0x118ce4d8afda5769db36d79b39bbae46d5a81e2e89bb3107e71de542bfdc3496;
    0x8a49e503eb999d7a3613c856569b591d4398b6124bb08bb5cefe639df7cee36e;
    0x2b58597e2f2a828b0644308a53294ccfc88b586189dc8478fd292d80e7d8a30f;
    0xb7f720a992ced05f958b3f12b5ae22fecadb616c76dba6fc9377f390b4887a6e;
    0xd02976ab359b51ca172c7d8633babc8c4e3b7338b7b8d97d7bad49a5d69d157f;
    0x13ef9298de72f66ae6a32a2a10f4dc6b9eaff3f70b9da7ce12eade4f20eb5db1;
    0x97df27f3a251fa5f20ad4e345dcfb342d0f923477b1fb01ea006f360b1ab45d5;
    0x14f42d75f87fc7e926e41bbc6b549b8074ae41d9862fb44f154dd759cd3bb883]);
  (0x0030385d, words [
    0x11ac1c6098d246f93f011c33c502d7b77bd70a7cd929c063b088921be1647b4e;
    0x68025ceafe426ffe03b9ac34174e9d5ebd8df7a04934dea71f94f528490527e8;
    0xf179beaae3729642e67afcb20982ad0e3d91c6be89c4e7b800ca84ee039e0217;
    0x9e2508309627b7ba619748c58b49f598f09d32afa2cbf5e56379ffd88cf7b474;
    0xd9aa8f2bf424100a481be8836313acdf12a19b86d9e525258849da62a1f4614e;
    0x56c9fe94d8724493793dd2438f5bbb20d94414b9b5e97a588a0a8e3c2d65763d;
    0x88a8ef3c71a0da777806603906465faf6587b7e56305cc47f71acd5f82e38b0e;
    0x2121dc9c77d1234f6e4a45d779f197405654291dfc7d6a4ade557516e410b369]);
  (0x003e8553, words [
    0xc064b18661739f5e7767527672966fc3467f8859be946e94ebbbcc33617a34cf;
    0x7a0d80c3521897bbc732f10bf1826a187add58316574274b3a3951ec57471e30;
    0xaeb5e8af937e7b771a0601f84b49e6ece343bc95b5f581b5196c6d171d448a5f;
    0xf7a41a894411c24ed09d6bf2f612189d0674a3b684cdcf195ce1b68c0291e664;
    0x51e5d9d7580fa28eacf6b170c133486e8f48642255b2acdcb306026988b86a7e;
    0x0379541b6234ebb13d6eab8e95d109d7a98dd64da1a55bd6d4cbb0e8d7094b83;
    0x43793639d6fff6e4bad104d06c78e1f0e8eb142a7d17508675eef2a433c5447a;
    0xb2e5c2b4e8ef0c2cf86451d62519505485ba3d2926ade7fa4f4500fc091a04db]);
  (0x000de63f, words [
    0x95b0c887b450edd82fab44f74d5434378b936fa72b5d4565204475c3a72d6fc2;
    0x0249084cb8da52e3e66834399086d93e621830eb60be9e201a71121b6953aef7;
    0xc1146355d5dc249f004babaf5cb00202308009c601871e4d39ca19fe104d7984;
    0xc524bc199e7ef15c5add856c89da3153dd93ed45d2ba59110a346c6acf54f1ec;
    0xf514bc469af1e381cdcb7ae1cad29eca95764d5f2441dd2fcd6628526815c3e7;
    0x98b86da1c519e264be486af7eb72feeb06133817c042abe3b98468fc024593a5;
    0x4b3deca4862d01c1a786e8b16c4592dedc0defbca0389d05cc86aa8eb60d7a1f;
    0xabf85e30b22bcebcfa6af1d67c073ad5d82b12c40980a137bc7aa95268e90641]);
  (0x001bab47, words [
    0x5761d1cae55105ef9cee049390c0a768ffaadbafc01906c33f50387b675b91b9;
    0x3b4f7b4eea7081bf0c350c4d5b64701f27f7b6d8ae0313e1bafb0d6e076cb59d;
    0x18a6686a69d54dfe4b9699539e4a24c0c4a87883288a10c58eb9fb5e901708d3;
    0x1eda4e0f19b82c9bd2f7dce0996bd77e304464b6e8d448986a4165c5352e3c4f;
    0x5153d4879ea322762cd75c6c849a84dff06a13e4de63f489d7d5e6a2d1eac461;
    0x037e9bb5bc458b74144301e475239fbf367a47161cc2ed1a0867d60fd1b4955d;
    0x372d3939b9277b7aa601283d45fd0c5062df4d998a390b8bcab6ad26bb5e4f0b;
    0xa6a22fe629f7887fd5642c3e3b7cf6873a5ed22f069f3a08ec40a95cd1e75a17]);
  (0x003175c4, words [
    0x628da18362a1cf5cc7935eb114dc603c3e928adeba138cca619f6ffd425f6450;
    0xfadf5db92d4843ff2bdb0792bee03bc1c787c81684a36da5c19942fe5f1c0833;
    0xfb5b6107efaf7145dc7838e525df6c1ef1e05e8877b812a369f2ce29fd918cf1;
    0x41627cad43311280ce94fda4bde35e6bd475c9f4220af8a52cd0c9f6dfbd44f4;
    0x59ada30c473f84668c665a3cdbf616e78e409160a5caeed40eb9c01f38c78879;
    0x13436942ec96f041f3fea745e59fbc7a6aa1ad7edca1c7dee86c0a254af09073;
    0xdc22cce857d3512b37175ab4728d9da7818d806c7905de88d74c9ba7371b0672;
    0xe28e4538a73bd32f7a0ba24215850c8705641200b2d8fbd1b7e31b155cff296d]);
  (0x001e60e0, words [
    0xe66e216c1561422f9c681ecc4710708557d465c2f528088740964549c0692fae;
    0xb156722cae1c0ddec7741a167e95d324b7d44edde082017e443413b21e80d088;
    0x80338b285e880a219a0eabe5a9da6bbd58d194adb50ac8ebb3499158ffcf845b;
    0x4d1afa12ab4db25f193264c7e054f59ade3c4987f7978b67550caba528fb7a47;
    0xf12d16c9feb4f9d4857542f1af796be2dc491284c59adcff84e6d91dd19be8b0;
    0xc4aeab8de36d578daee878425f1f4d6611391111940bf7bf81c88ff651f5cfc5;
    0x91be1876c06dfe5fbe247d8905ff29a625bafc9a14a31b79bc0fd67828d1b0b7;
    0x41be4bc5d16b71847235ef08a36c5f22669870d03d059bf99e55c550ab7013d2]);
  (0x000b447a, words [
    0x372ac27e456307d9b8829232642898cef8947cda66535fe6b4d88e488e35e866;
    0xd1e1bb4dd7b4e8cc19f60c62ef8a0e00208fc244278007fee23fd46debf0affd;
    0x08d0f84d3bc7255b836c09fbd7434b307cd29f46cfdf31f0c31c02aab8d435be;
    0x6e53b65251f9b59ea3f6b80fd1371be05a84e577054db3a1690113b7092fbbaf;
    0xf3b2b2bdf279380c59475c1781f0825565a16fc51eb91a417bf79d500e87fe26;
    0xcde263cfdad570d943a985d19ec169b2e786babe9e5337a54002cce395ed76f1;
    0xa3da73dc8abd9d94542beb290bb42224fe36f7b0a1f78ddc04fde0c88a3e18f7;
    0x19850775de040a45a32ffd11fc88b3db35fb905969529e05a648aa4ba34d9333]);
  (0x0023f8aa, words [
    0xca905d1db00c0df22144aa7a378b4fadc81c27605421753693cb5adc6a2b914f;
    0x9df6b72fc893c45d7e15639c0143ca62883b5699f0c994750c388edb8a94df1c;
    0x5ae52f9337caf5cfa8412ccba47797be0b5017bc0acf7e6d15afd9a0f375a029;
    0x1687235da5a15c05666bc7df74bb25c5d9c202b643972daee6f381e0ae0f38d5;
    0x57876f21aaf628b3ef8a6c187954c4d30636b1a5db79a867699b81871078b5de;
    0x7b4f57c20605dd32930a87e383b022251d22a72819337b8b1cb053e0c311b83a;
    0x05ca6d442f08e8ded1661ad9899063825c2bf26e534fb00e4bb6fd7ec55a3625;
    0x2335ec49be05808e3f2f56a4fa437edeb430c2c80e061e004956299b28122d42]);
  (0x00317078, words [
    0x6dc52cd144ff61e4ca4e7679baeb711b418a26540521edc00f81c082e9758526;
    0x602ae1e5434877e4c3611d3170bd0d59e47f9059a89d3b245af3368babb769ac;
    0x2e03d1f8d9757e25d72d328a52cf65efa441be62b86a36f3a1b170d23bb551c5;
    0x0c322c2f026137ebbc0b8e339eb952eef9ba4f0e7b6ca1dff08fcb61a8fcb85d;
    0x14fd29111c7c42c64351449821aee3b25b589f90e12fa9d6cb513059ddab39fb;
    0x729721e595a2baf4b6cf9bee355c4af00d9fb4ec5542f057b05833d6de12ec6b;
    0x42c24cd5303aac79d3e855306c7d02af641a6808825a9712895d1d9a8a289e47;
    0x724f69870ded2b07f4a980ac19730d7697fb2242890ad38ae989eae1f6969f93]);
  (0x001922ba, words [
    0x85e353586d5b80e06068cc4a936ffaf812092a39cdf8f1c5b60564d805f11430;
    0x51883a4df44f248bfeb1702a0099ab0119ca88bc7daf0aa4cad5e5aa93b5f7da;
    0xbd43c4bc665245a75e74e539dd7ba38457a213c693a44b2a5a162b4626f9e4d0;
    0x468392e78064942ee7aea96cce6f1a3ec1ccdf3079c8951b31d73ccc1df361c4;
    0x789737dc6848df22a0f368a5c2470aa8d95355090b062d902c49975a21285e89;
    0x879cabdd42434b055e4ea1329dc51f3e29d099eefc3a4da83e6f881cbf8129c5;
    0x94f282c006bfabf19dbad5b82269d7016b3b3169e00ee2899eb40318bf1eac12;
    0x2a56d9ed297feb0517e295adc0f0a938ac0e4abdd10fc0a01c4f01f8f3a68076]);
  (0x002b423c, words [
    0xb48b0c1c60520c0411a9b5f4fa9b25b6cdbd19507b76fb3cb282092452fecdc3;
    0x5e5e447c27ff35240f6d5bbcc2ac8f04d447935ae26e80398c30e1ff3d04dd25;
    0x5a9375144ad0d7d5318dd1378f26c6975172b1f5bcba74900b59e73203d1db1a;
    0xc236c93506724d56345377a551cb6bcb2cdaae4c8b4b4dba6a456f8da209b275;
    0x397e7e8521962433210245f67b971ddf7ed7ff157d9368f53f2b12d883dbba4d;
    0xdd731d1461a82df3fc9c7b71fc02de4950985676c24a6187b963c40f61f1eb22;
    0x9daa3169f65b8e6e366c5462b5842f86d4c2f1892f5c63ea237152d6465534e6;
    0xcaade09c533c962e645401608ebb40a10f9960068391bf64116aebeda919cf7f]);
  (0x000b9599, words [
    0xd6f7c415ec15676026ae38cbee072a349ddd42ed9e069361bddc03cddaf3c1cd;
    0xb6de6e09c10763135fed2f7034a37731bb27d69e9364a2a69b782c5fd95b33fe;
    0x83b602c6bbcd57ec764d11415b29a2e0489070440f66d70b88aa2ae5ed10a8aa;
    0x6bcef037821cac93562100bccd5ba42ee0b5bd2bca49c80235738460e94c332e;
    0x42eb79a13bff102479b4503f947b65c844e428e640ffb7b2e093ae935dca7d94;
    0x00609be8649b276b3541c52773fe3ba9c92f7fa40bdfc6743a3c7d49ffa069b5;
    0x1e12dcf5d393038711f75b9621e1ad66e0050484a8078ff1908b43c341872be9;
    0x64865bcad348f13dd1e6cbfa10182a43c5f8eec7129cab27fa93a0ea8271aa0e]);
  (0x0001afe0, words [
    0x7f658666819e22c270b4f2799eeb2bab3fa72a2947e31e105186aaa85763d63e;
    0x5391d24de62200d709d63f60f91b5ab4d7ccb138ed845c20e401f76608a56469;
    0xc3dcfaf07f16b0dab06ed3a225de834a4bd72154513e69fc87671e2167dbe704;
    0xd1009ce82015e1f955ec60ee31550c2916de7b47b3b2934dd9bf9515c64dd53a;
    0x3ca4e65c770410266defceed8603404ac4c13122f06508fda7e5ee30b098107a;
    0xf2a1b6a54693a065291a75855cb63b3ce4201f0e58b0b80dbfdb259756911fcb;
    0x863562ca6533cd040e191790bbf5eb2b615f6ccbc86315938985e6be81bfd1dc;
    0xf72f0a727bf1da8e789d12e24112d12efabf17f978701aadb2eca118cf0e445b]);
  (0x00218829, words [
    0xc09431e447c19fb46be87798735450d00e656b9c7f4567a305fc0ab5c0065d1d;
    0x0863238af51ea28b2bbc5ea0e04d28b821b4875cbac27465edd808ca54d7bec0;
    0x0c3e4b6dc58dceffacc7cb858dcfea45c6c8bf7f1de48e1787a3071a63e3a453;
    0xff669d870dfb275a6b3a1bb1a8486686e19657a51442dd00df88a4e43e2ec7c8;
    0x80791940c5b352cfaf3b03cd7b12867782bafbc5f5bf2524e5fb205b69d98f9c;
    0x91fb4cd63d6d96fe1f466bea18787b49889eefbe782bfb7c807e22f2dd30900d;
    0x39f3c4bb2523910998168884cc13e5faa15d76b57b158a73c43b081b25af8d36;
    0x3f2fec7201ce1f6234ce361be75501be1f50e53ce18cad452cd9f3a7bde0970b]);
  (0x001e42c6, words [
    0xc8e1fca83ba41d8db0f13f15baafd086b0e07cba15e495f18119aa2989295ef7;
    0xcfcbbbc20784abb6488a4a855dd73175904990a297ca93bc3f93c8d7ebfc2818;
    0x7f2d5bfc54cc2ea4cca254788f6a3a1973a8fa74c4607cf1e7469f1f1ca4ec5e;
    0xdf31dbf8d35268732e899fa15e3d0de7465859dbb028c12c0c4da164fa13e23c;
    0x805906750d2977ce47a808a0cdfd1967976c46f4d502619f60539f92915b4764;
    0xa5817d9876203934da86c7091e9cd496dd32e917b83363960734a601791e2588;
    0xc67e6e29058ed58dadd83ba2d7e8192b2affedff12355635387bdfe0bdf3ccdd;
    0xcc8b1eda0d9559be40267c85670f79703c42e24b2e4b76d6725311d019f81878]);
  (0x003a998e, words [
    0x50092664a33fcf0d703f5f3c673946bee21d82162b3be82a6d4825f001ca551e;
    0x6a264d28ecb3b753712764ad2ce4c39d10cea887aecadae5f7869f61a6546d2f;
    0xce7be29203e53897230062ad0b2a7d5d4e64627afaba0e3d38401afe4f59a52e;
    0x03d4b2380fdf74d149270830097c927e96cd87e9713297b9cd5971fedc1e4095;
    0x136f981e288078dadc967537cba9660074613602ee9d0d36d63e6ae17644696a;
    0x3fca24290735af327fc534a7baab0c5df16a05d591414088bce2bd0dd392159e;
    0xbbad7ba43a4a252c522722ff444711550f09bdeb6fe3c182a9e289243717f9b1;
    0xf1999ff461c947a8ff3c95b7510f8b98f928c5c05b3a6064b7ece15750bf3829]);
  (0x00265309, words [
    0xb0546c56b4cc6cf92cd2e1a1c02e6352fb9e8c996775c52d6c904cb8cb0b466b;
    0xca059729ff5d4212e1a2b061aed5f4feb657c2beee326c4877a03d04a3002692;
    0xb0af827f4257bc93351e0071dbdcb6060587d708c83d655f2040bc75124c4c36;
    0xaec3f86d31bd162437719a587f573ec7c47021b42165e4b5ff3b75faa520497c;
    0xafec12a294d89d5f15282261972905b434ce11e650dd0e43fc8ae33996c7d5cf;
    0x87c8ac770003558c994123b150e2382676cede5184fc6be8f1cd1d89b468af09;
    0x18a04b5b7af2e78c1e68f0bdb433e4d1d8999c1b61165e29e1ecd2e9e858973e;
    0xd3098c58973c7e04ac990deb070298656abc5962abf1d16de369a3ee162bdcfd]);
  (0x002be3ef, words [
    0x4a12aca592b94d2a9dcfa9c344da0d41b4544abe9caacc52a5b7bca78771a44a;
    0xb6312bbf6717f7b17dae5ca3d0a1a66d490db8275237868e6146fbf8880fc00b;
    0x2cf20e12043509a5dad4e22f69da13f004eb7e719cf918aeae49b7cb5adaa55a;
    0x90d30e27009cb831ba0f302f18a95c417d5d3fe8ee7e340b677769bf5c88a847;
    0x84774fbca4945d362cf6d5421b4dc6c1ff62e0e7f779fd7697d4bc3d1fdfd409;
    0x00bbb0db233450bdb16f076fee597d91e80232dd111ae1bb41d03f11b412b032;
    0x3cfc78e7c0779dbad9270742160aa1c69023ffc46626d9616efc0e1b7cf22da4;
    0x609bd3f048b4aa7c879746f16506da56c211ea81df825da7ca0bffc607eb29ad]);
  (0x001f0d49, words [
    0xc05ede2f2266e58746ecfeac42d5794862b6ae8fbd64c0fe9b5d997652c5c5e0;
    0x9f718952b0670db149b1553d8216691b94262d0c95684e378b0b78c195238584;
    0x1ec3db5dde3409f70f18a5738eba7e30268c90fa73913055ea3ae6597cbf80b8;
    0xd0c7cb287ff032527e68589b55952ef5ff4e56559a9cbf424008457b126d1dab;
    0x60484848da74b98637256d2a15403814dc9d39639973f080b829f12a362ac5b9;
    0xaf230d365b90aa031436a8b81ee1dee9fe00951a5815ac10d2fef643a98baac1;
    0x8f5bba226be0592044d0aa4f475397a421d6322e92384cca25490b10e0f1c421;
    0x8c17d0622a4c7c0c10e338cf9aa8b230a22c7829c6e3955d82572f0b9efed9ff]);
  (0x002e60e9, words [
    0xaadee2dd888892287dd76c7b75153ce14b2408ce118204d1cbee9ba505c5508f;
    0xed2882a22fb43cc5fc317982b22033ddb5997370909306eeb5878caefb76a42a;
    0x65e536c60ae59f501ff5ff15e0d670ee3f23457cf853db54adc75e7bc4121fd5;
    0x5f76b8fb13b9f9bcb4aa014537f1f375393cc069d866edfe9e42e3549b73d3d3;
    0x02d37360751a579c3d423ccbf0e2784c15f80488d28b093f7fd10219d8030d51;
    0xdf4bda9493a85055d5a429a2da4b0ed7f5a3fa6bc6701ac7a31653a15f9ff9d9;
    0x7e68af823ab840fe500589deb4a9bc554df023f82583e87329ee8dff6f271e6f;
    0xcbfcaecd04950c186800a6763cdd4c868e42f642be9d27f471d2d39d0b807629]);
  (0x002bef86, words [
    0xb13cd52adaa71d1c846b9a8a50f3069c8dfe2a121f3643a23e8cffe55464478d;
    0x4488d5c22b283455fe496b9de9d8f26992f49c4e59afdb80ca534b20b52b04bf;
    0x3a4c64aa453b67884b1131d1b906d8b1dd098dfeefb076404a93a13c8d8b3500;
    0x3ace075fc6bb1a58012264e40dcbd7f070999af4e7e64791902f1624eb86dce9;
    0xb96f3e25115327b4c7b49a35c4bd89701439d026bf531a60d75b7fe187135d79;
    0x2e2305a11b9449b76710cbfa8b058cf09a8baa709e4532b3b031c06c302ae90c;
    0xa9ceb74874cb8c905fe8402f6b784f0726be367fb41b5c1f0d266b7902097e48;
    0x6065e33fd4a750fd8c6849238f983b69bb5556d44bb3a48aaa1cf154d482bb83]);
  (0x00210177, words [
    0x163bfdeb8f7be68a784e2a8c67076e895c43aac4f1dc191311ccaaab68e2cccc;
    0x18ad912be0b4136da1dde11f5abd6ecc0dd8b19e53135f2f4fc86f18ce246a46;
    0x62890f2d1403a67a494e16dc3205d16d1114d8961b556c8ba30d0422a5e146fe;
    0x17fa185037d8d99e937154512270c32b62201820ade1cda651fb9f0f95bccb25;
    0x38a971c70bbcbbdb59a5e6a7c3b0dc17b4cf76caf2321a74fa28f5d2988c97a3;
    0x48fa8838bc43b4af1f95b0a382e71f5ff2d940006aea01cea3ed2afd5c05ab10;
    0x5fde813a39d92a024fef1bfb33ab4dd6a29f794012d0a58adadb9634afcf4690;
    0x8e73dbdce860c67f13e431f018b95ca30e85ce4abb8f83d6bb74104ac302080d]);
  (0x001574f3, words [
    0xa5d53d7f5fa655ffd373d45cbbcef8fcd9d8b3e2a65e2ad6422ff76e92114fc2;
    0x24eb6b1cb39567da82329b629dd4575ea232f4e8820dd7eea6dce017bea9efd2;
    0x82f626e08b4c4ee71a17a54ca26a7cfe60b75c784400c977e41745c62f3f6823;
    0x4fd7cb4ca15af763af42b1f596aad2d8adff58a6fa782d98cef429f1ce4fe66e;
    0xaa112ae728e1302cd6d239654e3e25f3b3a3ac4c68a1e083502bfab21b47f388;
    0x8e5f42efc96e050d6c251e981406a6c5211073e72d3e147da775a33e53b06ab9;
    0x0ea9d823163aed8574375316e7782cb995c3e7df4a9e9a6e5deb026a6b57f1f7;
    0x0cc6a382698b5a1745f7993104802dc4c159a8de2528c11302dbc9193d2a60ac]);
  (0x0037dba5, words [
    0xe23c21ba8fcda9346578c3b6713e421e4ba5dd8b461176447cf74c9d1bd41481;
    0xec85f31fdb4021e5358d08f5b5312e0ac497b9cae326b2ab15a9dc731a601948;
    0x9739aa6f23276d63de1a064bbbe0bce5e1a6919b66bf85631498c4bb4b10dd80;
    0x3bf8b64648442e6abe5f478cbe198e7b851f61a1d9b0a3e29d91f535a38c1d68;
    0x9bbb47b2234fcd3be5fccf31730ba7f9c98b2f00b91aa5d7045ddb6978bba6fa;
    0xc5281ea562bfc3d77c3802310993b0ed2b0fd957ca2065417367950db5193f30;
    0xd1e5f2ab7909ce56f4802ecdbd0d09287e93c87ceb72a09e725ad4818e3b076c;
    0xfd5463a5ae518992354d2846d0566931ddf5c9e70534017b63761d9876326ab5]);
  (0x0002aa8b, words [
    0x3a8e552bcf051bc38ba2e76530a511a4a7a7463797fa2d3af43473fd144a011f;
    0x84080e89f505b467c11131c621dbb2c71951418a64ddcbf48090a8b41a8d0d76;
    0x08812138097ed81f713ae944f0b9a0f5688d287e60af1cc20f0019a50f82f12a;
    0x8ea1544b2b2b145f54d71f330c8e7da97bc0ed07abfca975f2227bb7e77beab1;
    0x6c8eb8810c5141071e3c1a5c8e773babe45f613a556874de40d2d94780693664;
    0xdb69427e89aff6427af5e5da7b258ed586c0451bf7cbe4d0fbda40aceb5accdf;
    0xd26c02aee9f38d149368b3b42d0dc58095e1b54906d3ac0dd2098638a3de2e29;
    0xce2f79c71ac797dd74caa08ef27281d252a2380cb838b14cc12d8d3367da2032]);
  (0x003dab99, words [
    0xfb34645ed68e154e7da670e3160c9faefdf8b774211a79746b747d2fdb73a378;
    0xeb0831cb50d2770d14991ccd400fe12a4cc6206688f09f6eb6c41e7d9f810609;
    0x4299ae36cac2fad2c955d5d7e0f6599c8fadcac070eb2867859d512b60526c0b;
    0x08c6839b63398424890460ba22b0ae4ab9827cedf3664b8d5ea1ae81a9e425aa;
    0x5821ca679220e3e3070f15125417d5b00482aaeb85b4a984840f13037feb7257;
    0xdfe6938da8cda88dc02ac560f3afc3a5af96be843abc06566a85b15410e10dbd;
    0xbb6e516190607b16eb1f5f537f4a6cf2537498a32c6457097ecf6fcb26ca0c08;
    0x535f96d4450b4f8e055ec3428b8b2990210c7e505e46258a6ccbacbe9bc913a0]);
  (0x002800dd, words [
    0xa945b7ead9fa9f58df2931da7d819b337edf17c926fa898a569cffa852024491;
    0x5d06f812f355ebd9538bf1d7e3eaf4741f9af443cd94f609546f0a504c344d16;
    0x2ded470b977c40dcbf95fc8aee4766a9c825319702ce827dfabe44bde152434f;
    0xe8aa56e2862235b1107d840ef8d803d6564af25e2080e28319c8f77fc07b1d07;
    0x9d5b28a6974f92f5373d89d2184f8babebb8cb8b67baa4fabf6acffa00caadb6;
    0x7646adec8087af4f4f5b59dd6b039448c199f3d2f204644e2f8c961d419e3932;
    0x19fd6ac4b9ea174d570975621677da734cf0fc8e76b068bb7398967668b8eba9;
    0x69b53c6a8b9e7d7db9519ff09ea73d785a3c5fbc04e81ff23f02c009caf82aaf]);
  (0x003b8f3c, words [
    0x7125b75d3f5087207eae00e19fe8760c0276750ee7b0f45ac5960057e7617906;
    0xf6be415a73dbb21a127632a5be2197f89e2b86cd567c5c0c7f3bb4330f1b48be;
    0x5114bc99d3f6e292b0069d220b0522bcb4969007674224fde899dfd95a5e4f0c;
    0xcc0e27ea12a8c4008fac3631124eab6690632f99767ba3880405c51963ee7f21;
    0xc0512bfce5a29eda8d0b390b478d649c49064e803a53404a1ac7c2ba1c9ce8a9;
    0xde0366a3f5cca88fd6b093f6c772dcdda910b4cd08f585dd66808e6bb615cd58;
    0x127e21f89552be24ee1cafb586e071f9167a610569c5a4c324abe1cab2705220;
    0xdae384939370c3b89810221a260378bb19b1ce34ed3ec0b616f7b49b777a276e]);
  (0x000455c0, words [
    0x1717669bcffaf5ab34a23961125b46062f8ce1a78527123101b0b24366637925;
    0xcc92c7557b1ec293569e01c5753fec89999e80994d9238c0c5643e39ca97aea4;
    0xd4434252041ddae62464927ab22fcf0f4ffdca9a0fecb0e8733b0f865579cc85;
    0xd7ba948b0b330bc48afedff33b5f1210a0f61d0ac72c1d53f22106b5af06d904;
    0x4e620e3c3556066e2287b58455b9ff04d3d1efeaccbcb226afc80a6b1a3ecaaf;
    0xe7eab506142e906ee02f619caedc5b7b9a2f79cfe27d07382cdee261836ec1b6;
    0xf0e99fa39973305b487d4a8b6c81d17220cabc0c3264aa72f2d5d6da2ac48a7d;
    0x1952858536e1d143162d553b9e507fd3fba0a0cf6f973a73f4c8538f267d0a6b]);
  (0x0022c63b, words [
    0x2f961984f06f5b8fbf9f5c671e46c45d914c1df98a53f8f9e3f5ed9c94cdcfc2;
    0xb08a027ab3c7944e324559c70c68bbbec82f326e99a61b85c63a8fc38be0f20f;
    0x7eca293d808dedb1889249bce7c4f7fcf7791d18221206c637c8bffd4f28163e;
    0xa6481a0691748aae5c061a17b5e826e84dd25129b4296d822c5f585bf35ba6ff;
    0x572c91ec256ea66f423abc61576be2b6e7388ea7fd4482fcb49a635cd3356474;
    0x07f479d1af7d9c89cee8b8e76beec04cceea22eeaa71ea98aba1ca7af89866d8;
    0x0992c63fc0258803aa179a7944087d63aab150a35a6ce016fe585b95056db1fe;
    0x6f7db4b8cf89e0755e1ded6f2461dd5f2265efa7716b15ba06132aca6cc8feaf]);
  (0x00031e26, words [
    0x2001b59b79d05fcc35c6eacaa75902cced0784d4d77a6fab0d33424b7b2044c8;
    0x6a94441a4f2601aee0fd3ea402f1a5c50040ed3346400d51a6bc5080f9be7554;
    0x59caed82f47d5de18bebc5a8e48ff0d3d7acb6828229475136c1546e556082c0;
    0xe28b778c6a0e00bccfd638a8690ee25424d422944a87d309d6a4f7b6a5885022;
    0x694f81a277660e50e84ba5b475669042c40952feaac8340a30565799fae1800e;
    0xeea431642648acbab304fe8432aadf4372d359847adf52e050a855b6db68974e;
    0x8fee6bb427a25ba4b62c53bc91d138b5a57bfa3042f82a7888fdb642dd15bac2;
    0x9729146f9658ab195bf9923c4c206b041cfdb3e121a67e588984d2b9a38114bb]);
  (0x0012e5ec, words [
    0xc6eef8f525b2b9ebdc338489fecbf22f57c681f2912aa4423c1df496c0f43aa5;
    0xee32af16f68a354858c555855ce81ff4253822d14b1f119d7aab080ace1a2085;
    0x69e96498619a7834a8dd8a8b0eb18f84ed48351cbd407b7dc4e34218f4b8b7d9;
    0xcd138b85892a0d2a814212f6237d1eaf3823d42537310bd82bc6dedce9b6d57c;
    0x5dc8e784ab6da2eb8493ff1ab82b2ed61e021d4d50ed0f1966a042afd947f30c;
    0x7388baed8d3b6f579f85805a7a8136fc07a0309a23e476a7caf02a32d0905e1b;
    0x89d2343218025f709d5d800ca30b03b2347700611037fc931cae598f6dac830a;
    0x0a122543dfb1956dec5319951b1548ae76e35537c7f28bc9f2f9099814750d2b]);
  (0x001dd1a2, words [
    0xb890565a51db2cd74421d34e5168e6941a81e306568a661a4b36ed531355f008;
    0x502c82ae8a890e22775e792a6961de7f4b77d59ab69369d1851b00616a4d4530;
    0x81f15a4311fa018c71e7241ca8b350f5b9ef3c81cafb5412e41de2b7b13349b1;
    0xdac1279f06e239b216b8c19c14c66b07504891ed8c2be906dff87cbf5ff8cb21;
    0xbe82bf293ed8273e3ac85eb1b8d080716b1234bf951f0e1077c5b1344157bf2d;
    0xb11933a62eb639b0d60ea4607d19d5b4eabd12523990790e9bd3a88290b4c471;
    0x88e4f74b357e19ae8008cd7255276c7d3123b8da9620595a328615fcbfe4b100;
    0x633a84704f8cbcb7f8fe72fe631c5f5b88db1b1ff7aab38d5e2bc5a4da9b3769]);
  (0x00371aba, words [
    0x634eff5532541e402d4eb9c8f49ce171361801dfc3b4f4da32abe5e0e262c64f;
    0xc2c2c6803e5159cd918fad357935ad64c5398aceae0410abca6f3137d8691fe8;
    0xd83afcb330ce386e4960bdd140f0564b4c6910cc5c6840cb19813ba7825c2741;
    0xf3652016e1972bd3130dbc0871c1ad473cf9c1541679960ad44e14f762602222;
    0xdc699e3acaf30f919aa1a0e5e2456f014b62b4d5365abf336019926b76285205;
    0x967ca6406ba433301a72c34b5429089043defea284bea009e18388311c501aba;
    0x8b422e851486dbb9c4fc74e89eea7e708a4ab554f0b9210644c3ef5deb8536bb;
    0xa268e35ef185649dfee9910a9a3cc4a2add489488056cf549e2f5f0f8a4c204c]);
  (0x0016a68c, words [
    0x95b12d5dc1a0f6cbc4e522bdfc87e1c55548fd36656ad2b6a4b9603e8153838e;
    0xe547ebe4600899d4ec16b72e74c365f7da6fd0ab7f6ee0079077209db5ff997f;
    0x0254eea162a1e97767169ebd693c123e22f3277f0c3060d8df9db69ad47d90aa;
    0x0f8c586c0e6ca82c794b1ee8f3a35ebbead3adba43e2d4ee7d9ad27188738037;
    0xafde69abe6f1a31854274c6553edea98a7eb3a532039a256474b09812275e49e;
    0x145ff074f2a4c9160ec0f7d064d04d321ed217b330fd329e9e85cf2a74a666fd;
    0xc7d9a045f1e33ccf4df4f76cb3181745cf4e0576961b2481ef533f57554a8e76;
    0xc850e7cf47d3b85d001245ad07e6856df33461aa38d8dd15fff602c4bccc3007]);
  (0x003ca0b5, words [
    0xde63f6fafdb32dc6f040aa6bfa88ae5759f002111ca78741220c21d6386ae6f6;
    0x48778ad828ae90335fc7be12d0c676c1ea98ba73436ee044d8a9a06025c780c3;
    0x79c6f92ac961134ace37422989a45d3c3509941e88b58fe9803c6a9426e32006;
    0xbb30e6a2df2b45fd3715f8c13fb6e717f0c1828ad265f05944f5af92581e9070;
    0x01d9b0879f6a47a09425ef0d7ca56348da092e81e11f87f06a11c8a755bd0f0a;
    0x63e6bb4e1301d6599148a25c328d38a438f6ec0de3c8367bdc07b3253ed3327b;
    0x677f52c8e85b26e5f0d9a61acf5ba0270c69eeafff4209119f2a55236c0c5b9b;
    0xd47e06cea02a582fdf83c81a9e6424789cb37bdd8e390581d7b144d4347febeb]);
  (0x001d576b, words [
    0x1ee51f71ff696ff3e394256f55f60181bf17c9e113e19855a6952ac45ebf6ca9;
    0x5c3e7018d1b8a50d56fb084768d4466097b01b4f352156e72cae6f5056d253ef;
    0x0f6971154e4beed652436fdb0d0d71a9dd9e1f8dba125c3f1cbce1f66eed9e62;
    0x104c5ae3e877417d0f7b99de793502adb5c83aaa028d8b262dc77b484ccc938e;
    0xb6498bba61b34768205330a20bd3c8218bd01572e9de9428069684da55fda2b6;
    0x5581918aec7094d379cfde29cb2534e20be56a36b48897ec515e370b22230eb2;
    0x1d208701212381daa292da36f374d197227aef17df2a938e5ebf78b770b58879;
    0xd76480d7ea1b1f4c3d68fbfb0afddcb3e595e83db9e3e06c61ab79487511e0f4]);
  (0x004044cc, words [
    0x873be9f7c17c4074305800224a7d8c367ddcb42054057119fe7959f6719f06b7;
    0x583fa3432526c9279561dbf78f4d0b52bfc257f7ece9bd31deb2c9880246ce9e;
    0xaa12e03d17b7d24b12c600452d2378d487c7659e1dd3ff65266dc4c5fc071dc5;
    0x3bdc28f3400a01ff5c86c07446ee79b3948923e061c37056d20b2b30a1e71560;
    0x16762411fe4de471cba38469e7721cf906b4f73ddfb81708da8a016b4fcb38c4;
    0xc3e0a164380cb6c470f0eeca20a2d45c753e188c802ce815a4736eaf1f7e6398;
    0xdc13cd79b17595481850e53940d69052ea9cf0f9eee59b8ab8a2d9d6027a7303;
    0xe78992e35b3c965c79e143cc81793f3125e139c4740383fd8bbedf7344838645]);
  (0x001c9f0a, words [
    0x24fe8203cade404b765df59ed367cddc02dfd9d9b6a2a944a924af39f6ccdc59;
    0xa85c17598c4f2758817c77080ac24ac96f0d8bc63d428b2c7a359bcb79db9f0e;
    0x49a80ada5ca8fb29bdc4743341dfaa704a31a161036935377a799daec95ee4bf;
    0x69453d74ee18557ea8da599428f67c7e8976e6f802e4cb824c06819dc0b82261;
    0xd6ee316036104e6ce46ec20ba3ca386215a2faab2e6fc87dbaced252d7ca5d47;
    0x609a431b0718254eb88bb5c72849e2f5c3298dc2e25aca664191ffeeefb44c3e;
    0xbd4f5c3ae4b3da80b11471562a028918dc73648ffd0b6cd03b58f6c3cc7ac1cf;
    0x0225e43b9647c917d99ee30b6a1fe7ccd5b915900440d914875e7a2fbdfec07b]);
  (0x001509f0, words [
    0x43f2b4ecdd3491cbf8fc94612b137ef37951f96f4ea5a5c3c8dfd62855ce4f43;
    0xf409a97df8bd305334bd67c7c5919af856df8a44b3076e9f392fc95628898ecd;
    0x59c8849a368863daae3f5c57eb8e3b0a7e89cdfdbd11796eddb9dc4ad3465e24;
    0x2506058e1119ea2e53b33fc7de632a50b0ca1c682083ba2488428aa7a2b2c99f;
    0x427fe723b02c8e2147e8992de91fcf1c9183265d98ab179abf75991bc739fbce;
    0x74b527fbe25ad09c100ea6cefe5aa3353dcf187daef4de1a9266064a6ce6bf2d;
    0xcddd4e93739656f6c5f5e882525e22d4b10622aa89c1a8f5c9549a107c7964f7;
    0x99baa52d4f35074eb8bd61aafb5c991f2280711433ae724786739e133205bd0e]);
  (0x001f1cd2, words [
    0x01f3eac898067596847ae02c10cba4c974478e11a45d623aa6ef3e9e442f0907;
    0x39f20acbac17add840d84ca878ce05e5f905f7c08c8059366ad86d6927cdaa4c;
    0x0e7c9eb7c0a329c9dd4023090bede6859fc914b43900402e374e760ab910922f;
    0x438cf49630cff3d9cf460d51eb28c6ed4710faf6dcdc4f86bf17094d1ed38931;
    0x2754c40d314e985f9cf22a86c5f74e2224c6ba4ceb40a7fad0a3ac44464854ca;
    0x279fe3e459b31771fbb728f726f14c532f69ab06bacd4832305fd6a5a8a0b754;
    0xef972da1ba31987f4e2719241f65ef1990328ce3a1879656706817a234e17b2d;
    0xe3f3ab2cedd4e9af7e7285546a759bc34953a2efc6a1ac055a5460a6c0ad4d33]);
  (0x002c3aaf, words [
    0x5b3fe46d46ffc40656c03441909164a9e7ab011f6ce2535623c74c5e876243be;
    0xbf87e751fac1d75a98997395fed8c182e894cc9d5445a7b6fa3aebf7d58a2db2;
    0xa906dcd3f6af2428239dbe0798b96c868484f06436f2fa8cac35cbc3d39434f5;
    0x38262838cc3ef0e83aa9bc62909951471dc426d6ce71b422e76ccceed5ff8ca9;
    0xc54f6f602a6196c398f9d242ade506f92a279e92825c56ea06009d35f85b297e;
    0xa8267b0fd5290091f5876cb331841a167397bcda0be02c13bc171f08d580071d;
    0x5f34137f239feae0c89d1d53b57d140b0e68de3e0297c91c54b2dc7236408559;
    0x99b5663a261318a52285d7bcf57b816f42cd7d08d80ca83705e7aa1130bb85b2]);
  (0x000ec061, words [
    0xdf1fc7f05aab2179924c39e0da5d3c70ce58b9fdbda688b45f433958ca360ad2;
    0x99c2a679ac3009d131c449b0d73c6756f25df266b61df758a7d36f340a0b0a16;
    0xe48c097b53dde658b951e3f572946884b74291b0bc2c04502d0002519be856af;
    0xe0c16244aa812de69768b92d96971db24d1dacdd6e294efd568d712deac3e3a5;
    0xc27b67748fe24fbb1f15f9d8d240cd70c15cc1331c6e47c32481c07c682afbd8;
    0x71bd2f2b24ef07f23ad833abb52d7e1f52af5db7c7959994b6b7249bad781571;
    0x12c3359171cba6e35536267ad25c950a9498196433f3bba063e2606d524fc439;
    0xe28ab10869624aa3ba2eb1d3e21c90d01be2c41af4ef737ecf88b1f932cdff2f]);
  (0x001bc2dc, words [
    0x59d3194b84746dd305db3114ae3894b9ae9c8a956114fdfa54aa9d52b87903ec;
    0x1448c0065933c178163a76a0c6b599424eda62820e5d5271a85f952485bdb4fc;
    0x59266ea93a9946d9929eb034b28ea1cdbae15f080c048c1d42e297f654f31895;
    0x6f70483e0a88a6545b3ed00f4fab2cd91d3b35b10b9efffecb6b6849d3700d01;
    0xb28c6cba0f1bd11d2b0c7e37d216bb5322223ab45a4f3f5534874e4cc2cfd259;
    0x59d656841f4cdc9fd3cc3278cd52fe79e5adeacd61f50f0d24d8a99a6faf5f0e;
    0x9e4f54e0d9604123d3b6b96d47aab828127cd72b2876d7fc73278e2320e0facd;
    0x9fb836926923dc9fee4824c4a8ed67757f379bc29e4175ef84560fd21e3237e3]);
  (0x002e8d6f, words [
    0xe83aaeb9aeec7d949096e87a97e4f13d2570b3642d5c46200aec4757affcd110;
    0x39e4e5397026314ceb56fa2a697231f708fd40f0ceb7ea323851a8a7c110d61e;
    0x59bb375ae6ea7393ee1aa71f9e6cae51a40be10b56782b18efcdb5cdcabcf958;
    0xf16e3735d9a1e88622e15834e182e18b35de52bffdc7a8c7c450714f6e338a50;
    0xd3fe81fe42322ab447621d3ac4eafcabcda9a9652f8360082b932cc3df3751af;
    0x8ded0a3282ed76869c05a76ffd093eab65c39f5e4a25cb6a4af32f7c5273ca18;
    0xabb5a5e6fdef0f7a013165c07e0bdb7c17c47dfed6ca33910ea9b51f30de58f3;
    0xc0392ad96dfd7ac200bf05943bdae7141e3c449975369666f5717812d8924025]);
  (0x00139b41, words [
    0x339b4fa6e3225384999890e3cdfea1f85685af151b5254601eb5660522a2df19;
    0xf76caf5d8527ef4fdac61d7d60a81000dfab1399051c6ca6fae120d84500b5c4;
    0xfb1a473e8ff9751b8197de5f0860f1c8dede51379d0c6ff81f249e46f98c47f5;
    0x271267e9176f7da7bdcd7d334140d1179191cc6094b45dfa5a504118de9659ac;
    0x5a9106be44a56c22a1b1bf08dd1e34b9cec1a19b07a325253661bda05cc6ab4e;
    0x6e8bf102dfda538a29436ad7c2f9f78f9ba8ee6cbf13122542b586e63af610fb;
    0xb8876cd4a6d9b9490ab24866078749eb6101337ff853768315193e8fd3dc79db;
    0x122342da86863b523293ed598ae5bd7f771b703e9a25195be86205e78f8ebee5]);
  (0x0007fd7a, words [
    0x6721466764c3cd1d571666419922dd58a02bb0444a28b88866a2e3008e41e49f;
    0x31d8e217bd2900350480bb79be5218ee941ca43eaab4660a9eca80b9eca277d7;
    0xcae78eb09e643bdd041c082fb19eca1f1c7dc98b23c5e446266d73c6fa9f19ee;
    0x57002f6e28c1e39ebfb5632dbb67486bb6faaca34ecdde92e019075d9a117c9f;
    0xfa4a2b0e5961b2d2e93cb0d71f3076b3712fbe7e3ac344f0883da35d27da7a38;
    0xfaa6d6432ce895e3287f0dd5c3d1f6f34df84b19ba94496336e2829cd0572fbe;
    0xe288a29879c76667afd47e3e9c1632602f589a89b0890102f35ffd123b57db53;
    0x4bbaa3852459cfa3b641b12698a175a29d9ea4b899982693d6ee0549ffd46b9d]);
  (0x003cb0a3, words [
    0x84df02b7d3e60267612097f6cdd1a670acde23cd3fe1d24adcdd369ace633c8b;
    0x4569fbc8c79f8a830a863dfaa6ed556ca30494ca466f0892d21893085ad3aa43;
    0xbb3972d9d0d5fd2ecec88f722078c4e958f74c9082a70ebc42b2100726907f27;
    0xb8c98a012310e133b8456048cda295f18a2bba2fce29a349d908ad75851f5eba;
    0x21704d6b6b09210ddf8aa84e5dfc612e7934b177f70332ce26b86c9ce3d3c8cc;
    0x58d849d40e2c26385edd5fc2f8023a1d7dc918362a9851020d65ac1d00afd225;
    0x2d17a9c3cf9c54ab13b717539f59d6be5cd0d1032469009efa87cf4609cea7e2;
    0x0c9f565349a39d142c898ab41a41f7d4592dd4e2f4beaaccc354a058b3bda297]);
  (0x001e8af5, words [
    0xd4cc6135fb0ab7e4eb3771426da22e63b906c3454352d467ba74d218ed1327e4;
    0xa84e6a66cc2dfb59cb93bb4cb3ff191eb41d91fe78eec0858d9668f27dc24be3;
    0x224400b310669099896861186fd3afb864f227096bdc9258c6630143d384f55c;
    0x7d83869f6bd623f6af354a81f6de0e2814f696cd1c569fd6c9a66b25a82279a2;
    0x03b144fc2bf78aa2a564cfe9f70c3724eb5d4c568d25fb5a642d08d0040535df;
    0x223a1ebf69a9bbafedea9c7ec9e40d32d97b907c8158f2dafc0ac076e6410aa1;
    0xb1703f541570e8f4fe28c3464be8019547af62362b5df7765b13adcc121e365d;
    0x2f67749909afa12883c8c8189ee89794dbef058738fc1f4f33eca5c0bc591e87]);
  (0x00301672, words [
    0x6f15244b02feaf3e5a46a32291ac264a9fab936915edcbbfc9ab028a10b7533e;
    0x00e834d497370ff8c807b94c4fc8e9c991548b7021809ec512e055b4b709d43a;
    0xa06d58fe3500ad1ea142660efa86487d3d6a8f3f44ffd31789bd2b82d0a1fa5b;
    0xbe5c9ef3524f4ff0c1770ceeb15364dbb3bff15b05e0d7e34c6d79c1f2ff917d;
    0x3f621e0936eaaf0f2cd1e1e75f0fa1154a2fa3b4d3ba4e1858fa290b687643bb;
    0x5e565da50da79656793900e0291b789ecc20c2b3d5213a6ee7f77db2ff5c71e7;
    0x56805c79620dfaae0326c381bbd9c909eacdc33caa9a9b7c46f4671257c92199;
    0x9a982945e7e5ce7ddab3e9f8965d82a617c27571e0256dade8b953abce0d8469]);
  (0x00073b37, words [
    0x473cd4b153ca1921f19a6ea312ac8a51774f2f74125fd416c8f290b2394308bb;
    0x8ccef68185990b9cd14fd622d24a569fce89234be0db19719f9064ca131c4579;
    0xb1a9f367f87461a3edd529e92c7a3e6c5e375f0af41bfd1dddfee86033777093;
    0xc2c9015c3f7e1be51b05dfed9e710fad4f1da26adfac5f6100fd4b40956b13d1;
    0x3656f0a1303fabe4b811b0a05dbaf1bade54e9bbddb9d78268de92ebf02691b7;
    0x2cf9a54d4b6b9c8c68d972ef43220927a6cbe9e9896738a6666c2c46da76e2e6;
    0x35b3bd5c4663bd9a2b5c4cec485204d39ff11422196bb4da4a82944003068825;
    0x7088eb3565c2fe85d49e51b14198c4c8d6432f4563d1511d13acde2e26ca7598]);
  (0x00326ed7, words [
    0xe56e1ec54294f848e8984e5e67aecef59b7a0a62ece098c61eb4b5c7a15633db;
    0x7f3ec0cd6d7728446564dab9a86057a3f1a19d27444fca6b78c2e4d1d74e97ce;
    0xc2bf6a9fc204a4ddb647de8b0111287f2fe488ab2281d89f2425b9df8e60b9eb;
    0xaf873dccd5f256b68711af0cdc34f7273e4ed2c03cfdab06cedc403aff9414a8;
    0x442ba544d2f63b0d39bb5d788a702ab5978d66f45732b118c0860c65ef5e064a;
    0xc50d60918633e391e0fdd3efa4a417fd1c700b0b36c883077fd7b1baabc6d4cc;
    0xce3fb3be650e1019b9060cd07d7afaf725da58affee0a0289432313111082d97;
    0x54832d2379de3bd5f8356ffa59085c4515077b0c6c81d943829bff18cdef9da8]);
  (0x0031fb94, words [
    0xcaace9b09079f2aaa890371cf215ed2fa03f30e63af9efd78cf4580f9bd419ad;
    0xb0798020c944f6abdec5724f576ac265d11a7909f3756c285c9be449619abbe8;
    0xf7d64451b6c1ee08a2b2af7aaa6aa9829d690689684686b87b145c4feeefb38e;
    0x6a72a3c5f30c42e7a71c0dabcccaa45c00ce74c3556e0b4fffbe0f7ebcc91741;
    0x031f6660b8d481483e80ea4b7e85eb2eb85a62b38b8810ec1fbf115a181b9295;
    0x55c24584f941b53a0b1cb2fad296ae62e9b7e00f4267e498cf00f7cb76397050;
    0xf68e05c6783f830f2251082a8728865e6140503fcef8fad2b171a3baecc215b7;
    0x80fc8e7c85bd4edb6181ec215c881b9ca9fbfaffa9ba2a2387c7739e97f9975d]);
  (0x00205a7c, words [
    0xccae0c8d1f6f8b2d692e797063b6540285b75188d5cdb33b410db6d7af94ebfd;
    0xc04ff6bec9d2173c8b8e912e5f780b9489c85be89ce07c023b73e9f1b4e08716;
    0x0bc06d2d2d0099e93b996ce7a4d38be4f5e88c3547bb57f80d7e7e7aa53c8833;
    0x978aad89bee0c7a29ef0a2c81f54ffc1f913d5023b21fa6fb7f733ea55fdf370;
    0x1911b66135a265ccb9b897051e7df4aa70c9180103457c0d86120f76a6d99dba;
    0x64ec16f577116281b20d2955db6a873448b8341f19849d31e96ac3963f848be6;
    0x1f9443ad828955d8170bd6515eccfe62f2bf3d0503e2e7146bacb4d2e9b4a69b;
    0x46ca4e232a78ac3abbeb828ab9c8cdaf3907f253e31b78691325504c598dcbc1]);
  (0x00142c3d, words [
    0xd6032652dbae46c81ce3602332ff0c48bed993eabbdcc40e53b39145ef4c06a0;
    0x09245afed7857d7499094c2ca43ca96498f524f77ecf94fb631b8e9b2be34207;
    0x861143b33f458f0925818295cc49544add2929af2e83b1fdd25a02febbbaaaa4;
    0x9231a9cbec11f52b5a8e017ddca7767dc25d7d91f69e3b0c0bb0dde1f05505f7;
    0xcc0aee9c8dcda6477d61bf4be2e35915ff1a9a18e68b813baff141f9fc27f62c;
    0x8ed7e63341493e97db6cb88367ca8cb0f56994bd0bc0fca073d2e1aa70aebcff;
    0x22f09919be5c2ee5cd2870a4823e5911928d15eea35df445d7ffed45f2e3f45c;
    0x9b3e19d41a64f7333567285ecf38afc64f02a62d9db5acd45a1b31d8de05ddab]);
  (0x000bc955, words [
    0x292ed2b5bb0ce5d69badb5aa7bdd00d33f4681048886ffcb4915d82bd15532d0;
    0x3e1fa0ef35991b2ce24d3501c63bd58dd1185965adb81a59778e8f3e3e8dd89e;
    0xd1bffd9ede14e8c2ffe6513fdfdd6aeb5e7cb9e3314e68720ace25ccc83d362f;
    0x4a0b0bcc4dd75b5778a14428ea7659b5f35f7c293e67266481c99f537745297b;
    0x0bb11884c838ad9addd8a4aafac81c3b86cc600de7cecf41234e73862cbead9b;
    0xa91b2b75989b07d7f9eab0319c54698a46f3920f62e172f12ed3183679636ed2;
    0x4c26082f05204a6c1646c2aea12091078e21f24aa87d4eb302cb3a77359db592;
    0x0905d93b524814e55dc19947ff85bbfdc2f63cbb7b34eeaa3ab8c065855df39c]);
  (0x002002ab, words [
    0x5d0fc3664c035c2b294ef4eeb70ca549fec381dcb441acbfc3cab04510881c03;
    0x68c8192b9f78144dcef2f8b4f16ef2fb3a85ea6cd9916c893c88af3fce419cc8;
    0xf92594b8aa6db709af98d63ad89674e1a3f5ca263bff28ba33e2b5e3b1ce8c5c;
    0x014e7e5e7fc4c679ad0a993d3c94b646a6a501f41021f39caed12ce9b85933f1;
    0x2d01d7a918ea6142975f2fef16a75a75b3527290e60a27576868dfc72b729463;
    0x4db8ef3c8b0c1ec560e242491280c8fc761ac67ae22e44f18ae7e7fe5765f918;
    0x63895765eb6e98a59dd97ec233b68cf73b88c90a619fb737867ac288e28310fd;
    0x5a490e8592615b30ac8e8688b5fce8475351c1ebd70396de178d079cd30dd861]);
  (0x002658fa, words [
    0x2b1b1f91b7be0fccc56d45ccd6a53848d514c3b395107b7018f4205a50b7a5c0;
    0x8048bde4db53a670546727604c2780c36613cf69d22a85ec311266041a000812;
    0x25addaeceb8d9000d78a7f6c01ead6787eb4f4a07c2ef5879a06cb13cfa351d4;
    0xd72fa47a0bfea2d47af4e55d1bcf1aebcb9e56b9a962fb761200cef138dbc442;
    0xbc3724eabcd999069135baba17486bc2d74ed1014062ec0b8a280775b23eeb2d;
    0xac251041ed2e13b1e6c5cf5bb7c76769ce87fe460488204dad198ca176efd5a4;
    0x74ce59282fc2fff7082bc03e38dfa3fd5732078ff08b43a87d2304339aa8e267;
    0x410da511cbfe53e5c7c71e85873188b31e04a09adb4eb248ffb381057d272f80]);
  (0x001e8e47, words [
    0x2ff51102d47858c92fa80ea9b5283019cc5904639f2839332fd4823951348de9;
    0x80807144e0c73d81a49da65e87915aa3526285da32cccc9250ad9966ec62ce16;
    0x40c9f32aaf2e06a6147af13660c2bae9ed497a4a80ae11b3e979bfc8612d657e;
    0x6def7352f607219fd8e653781670237e4b80b4d68ed3564a524a7b69654bb5bc;
    0xd92fbbf9263eff01450cd27f244c3b297649d3e411f094c09233d41d26e6dd3b;
    0x447d7521fa56daa99c75df25a8b2c87504b5f42d91e3173be02bb00788410639;
    0x8115bd47c43d22e94695ce7452c02b74177f3d5cab13d6397291fcd3829d9e99;
    0x4041efe450b6b523aa5fbd73fcaa3de7cf231bb0c1caf331422a2516422596a0]);
  (0x000575f0, words [
    0xdfe19abc2f64a7623790bbe4101f33052b038ad804dd567652d53f4885d4d56f;
    0xeb294e85377ca73b3cbde6715734ffb8f9a8397843edeb45c76c5e633033b5fa;
    0x34e03f0227a3d0f6bf0a8200821e98e959d25edcd1ff697bc17c238af9a02855;
    0x48a3e5e2d7710792292b31ba9eab5f4e6058c480d280b4311915f79ad423b996;
    0xc088d1da71afb953372f5462afa3b89a9b0d11d1fb1387582140196cfb69ddc6;
    0x988805537543cf71c1b1aa69bc1bbe5490e6c1f48616196c10e5f1cd8863a130;
    0xcddfcf7c6760219a7e6ee87732238025dcb527f040116390305a95e86fe7f108;
    0x28ff32ecfefa36d3156b9bcdc2175bc9980969bd58b6487b1b9b91fcc039f66b]);
  (0x00277275, words [
    0x3b77cd0dc0c0564f14585f9335db9d65288a75ddf159b570d4d5546a4a82d261;
    0x50445f0e2700ef5799b2ca106161da8858b0971858dfd76b09adf92504e4e167;
    0x4a0fd49e7d0a3c8dd054ee9b87d23e4f07095a4ce53bf03a46d5ceb2877992d7;
    0x51eb7b8174c1e4076aaca43a5ca2d74fb068abafd8888157566de14402ed7b4d;
    0xe396b512be00507c526f90a3f4af1c0af902061d890f2e8668ba413209fe8ee2;
    0x067ad9748748b205ad4c65c84ed1e6c090c36a11e4465e04a95f000639ce1a19;
    0x31bd5e5b75341ead98883893afdd15c03145a3354a6ce11e186f2b06ef18d59d;
    0x4082888b1a58c27b5e4dc8e6968df8ec606fe2a08828f7a154b0b15189557b69])].
Definition test_lookup (index : N) : outcome (list N) :=
  Done (match find (fun p => fst p =? index) test_items with Some p => snd p | None => zeros 64 end).
(** algorithm_test.go:851-2101 *)
Check (eq_refl true <: done (Hash progpow094_cfg 30000 6981462876032703942 1082130304 test_lookup test_l1)
  (fun r => same r (hex "67ed6cc54b89262d1ac9c3f24ad0d2362cb703c1e23881713d0350ca3035e2ae")) = true).
(** progpow094_test.go:75-80, with the dataset of the test above *)
Check (eq_refl true <: done (progpow094
    (hex "ffeeddccbbaa9988776655443322110000112233445566778899aabbccddeeff") 30000 1 1082130304 test_lookup test_l1)
  (fun '(mix, digest) =>
    same mix (hex "67ed6cc54b89262d1ac9c3f24ad0d2362cb703c1e23881713d0350ca3035e2ae") &&
    same digest (hex "ad8fa791bfb2f474a3487d27075bf339d73e0e69d62ecab14166add94c8d0f92")) = true).
(** algorithm_test.go:93-849.  The Go test ranges over [tests[1:]] and so skips its only case. *)
Fixpoint rows_of (n : nat) (l : list N) : list (list N) :=
  match n with O => [] | S n => firstn 32 l :: rows_of n (skipn 32 l) end.
(** algorithm_test.go:109-206 *)
Definition round_mix : list N := words [
  0xb84870e0ef34899d280a8fbfe7a5547df77a9851e000a19457bb9ce0a74038fa;
  0xcbc16fc0412364283cbb0e3976df87b32f3544c53e5ca097298d3fc3c95a2f8b;
  0xb3b69ef786914ab7b5c6ac6af558fce30ba5c413b33b971fcddaae2c2f0af0eb;
  0x211b2e1358676a9aa289711208be675eb58711e94ef2bcbedc9415b88d5b7852;
  0x540325b75056b6c26a7821b4fdb40cc3c6af4b419e11ae8d6d268bade5c8a688;
  0x9c7962d837dc624628b203beec451cf844926650bf807d1473bae0f6c97831a5;
  0x36166e7ab365d2d17feda427b6b11bb2d2b889c83034be052d255a69f29b754b;
  0x5cce9e6da3047c1d7658ae60a5e15047246409e0cb29e29a5267c77ae8a6c65b;
  0x906520822f20e52c7737d3ffdba1cba24d764af6deab84633307a8cf24eae96f;
  0xbe6a7e1bbeb819dc35634a37bdf03562c72a5d46c9b5d30e392d2fa862666a7e;
  0xa4a8ff4a5a9a4cbfef599b65baf1b5a399eba89f89d1c9758b2000d358fbf5fe;
  0x1ad65fd9c1821b59b3d1df4ae0ac88fe123eb4afdfb1aad195cc601811ed3fdb;
  0xbb63f9df395d87746693c51ebdeb4237d7a027c9be7e7cbda382017a3ae74c9e;
  0xfa90d229ce9f301785b88cf704f933d710c2d0c9379b3a5c2989113b3399c83f;
  0xf1a08b3abf5add29159d0771c4ccb9b69db6c966a072e02a91a3eb8327d7ff63;
  0xc0a009de9fb1e1f5a9340f8d6e18d2968b4ed527fab2f610fab1761c4713fcd9;
  0xcbc21dc7a2794deaab04c436787208557ddaca3d5c1aca90685e27e99f631b0e;
  0x517f2e0b108f268e863a1c77aa040fdcca229b715c6df7b8976a45ef69233a7f;
  0x8637edc37f5e12cf8d12a5ce8efb49fbfe2abde52af2b6ec1c13a13fc6e527e6;
  0x7ecbbb0997b61acd0c9cf183ee1d1f3f983371cf3b6a6e2911c5de11deb9c7d9;
  0x878968f9f6fe512bef8c9bb1e1702ad4e9a6ac076d9f2137260b9855dea89dab;
  0x0174d7fe8b200bb8a714237cdd28e5eeeb64f5905149fc2b5194aa7848247baf;
  0xf5aa46b9761ef5f1dbcef85f01d8ec9cc40135d87f81c38cebdc6f2f0e9793e4;
  0xe6f1226da71bf938a7d51c697f619ea633e3010354c5b64524cb6891f5285029;
  0x7ce982cb978a2a51a451417b4a42113c3121486234a77243b2c0b8a8179ccec2;
  0xf8cfe64c3a17103d50606b35c10d326e5195f42a7b3caa8dc7e70ca7e88a18d6;
  0x10b0e42d30deb65c8711472ba3bdc0bf051f026ff4fdcb37e898c2d1ecfea975;
  0x6159c963392b614a1adb807a5b1dca34ac73d8d24eac273809dccbaa97c957f6;
  0x6ff857b699039f71a18ee4216d0a2b46e40145af76acabb3ecb3dc4d578bf821;
  0x086ddcce79682f3ce6681ecc2d5a543a69cb38d51b5a909a37a83dc798f00107;
  0x55f427939b81aafd023230afdcb223114be1557a4384ae2919c2cce238fb477a;
  0xe9d4782f597aca5c6636007629575d61e813d6cf929db7b1e1d8941009449de3;
  0x277280116b05ff24252fc2b411180569dee313905008064de9dcbe1db2adbd6f;
  0x44acf080cdcc05028ce7bed35b82537124a5379c5848a06d840067eeb36f1e2e;
  0x340f9d51f6033c5c7b085f4d805f6657e9659d173a1daf4f9403c9b384d9df30;
  0x5a31e28b284452632276806019c8c5b2cd601c6358170e74686463a27cd97615;
  0xba9ef32ef2a29e32b12dc15907599637918e844815f8d3679b564213ff915669;
  0x8ac0a688f5e3ba66ccfca4054b0cea70a4622d8fa49083f5901d09a64da8b0fd;
  0x6fef714d070c0251c4e04bc4de37751cb3f3c2a72ee1c93cd2bd5513c34972e9;
  0x7a01d3585151d2238eae88196cb831bf6a9651f0ddd0213127ab4cc3481b2098;
  0x866672607f917c06fec27a3883f216a5ca41920ba8f35b8578349bb27dd65dc8;
  0x49be3180dbcf7e24d49f05d2d5b951ce27163d45f568b0c6fe4ed6b1c488ace3;
  0x4da9b2ab16cee64ab09d615846a5423d52e4a4c6152ab3a950ff541053299174;
  0xe4b894261abff140cbdcedaedb2cbcf8241fe2fd192fe1d4fa58f0089d1ff6f7;
  0x09050a470b23a54e6f1d3c53cc597fd9ca635c65d2303eee47863fa344972402;
  0xa0e623ddb5481e8b806a3d1c2b388f6f8dd8b88fc56878a058cb69baeec1d410;
  0xb5020b509b3c6d0b82fef4e23f7e5c14d4c59e96ecb80d7ae3dfb38e161b7b5d;
  0x54a528e033756e189b8d861164700ca1fb6b2afb0f0f9b6e08bb699551649bd1;
  0xb0c71117a8e76bbbfb43200dd1615dc93dec25454a9d9e008ee0a5d9bfa29129;
  0xc27251c72df491012d497cfedc4cc2bfd952b9b5c4dc9624b8c5651dba54416c;
  0x4407936123317eab317e9a0a88ecc0e1b91306a676f6bdc926aaedfde4fb3b17;
  0x69a446a5f9b780c869bd8e9c19d3fae9ae0ea9bc72946246116937b4c621b2c4;
  0x8ad2369288ed21c35239e573f41765a0bee4cc3c5479aef32366afd79b65aa49;
  0x2cc48e4bdb294570f89053dc5550dd4bfb918482a86329ba8aa9d26ba4cd95e8;
  0xcb736b15917b9a8ec81a00bd0d28d1303e6e0fc61bf27365eb5f03f61c98df76;
  0x7462aa2dacc433366983e3948432387927172c30178008e77ecbe0e8454935c3;
  0x6bc34971c56888dfb112c48d7d428e82914b53d471c96c59f4f6cebd0fe60b85;
  0x53514ae9697a9bb719eb0e0ae4b104b9ceb758689159be8513d6a88829d98e92;
  0x7f899ab4f9099c2c057f3f060ae42e01f7c474550019d383e1496edf6e2c3a6e;
  0xadaa79360cf761be6777c35776ac639d505c57a9304b6be220a5d60a25a9fb51;
  0xb08997379ea036921e5ff9c13a265125ded24de39170664674e889b92cb0d16b;
  0xf10769a2221eab72d0fa8fc679db5fdf1d9455ff0ed51f0f0b1630a3bef8cb14;
  0x6dfee36932a6e33396e622b6b94b1b610d71fc0ba74108a49c0d1551ee5f7cda;
  0x3cd7b60be8b3419f687e0021a1b3536eaf5f79f5c05e88cb28949ca65a37db0f].
(** algorithm_test.go:734-831 *)
Definition round_result : list N := words [
  0x679027b56b7459700dfbb002e0b5920d9a1e02a6e014d43310101b1ad529da18;
  0xd357ced511a976acd41cd57c5b97a9a5c97a73947f68cdab956952eb2011b6e6;
  0x482a9e01d565ba912d989775d078cb6a17db02e4577b10654f37547d661b171a;
  0x5026b486aa999b2ec606e0d1ce13b5c0e49f286303af5d1ac973464be68b1552;
  0x923c34720161628c4285d87cb33a06a0772c49a1604780485b35c37ad65cb39d;
  0x301622f186b81e6f3ef27b9ff89a196579c3e23c2672d97e622ef3b3644c5ada;
  0x6d60db8d760246ae1f863980c8263cc438c7339284b5336201af121b4b6bc3b9;
  0x3594e7ac76a65f682fde6a922b76cca6222426017ae6e066d82ddf5ce0fb1803;
  0xcae2006dd0ccbafd08bbad1f0ec2f5b15073bd0fb41c10e627c83defdfe1a46b;
  0xfb35c9e021ad65dce1cc91374a5ea57fb7a484c1b61e959788f38c327da589c3;
  0x697dfe78d1fefe06875f89b195d0da9b3a2ac16e94fc8e463c966629a37f69dd;
  0x0f8e0398b08d45eca05703cf2f2b9b2840aa89599e6e31ad519c78408e4a9d38;
  0x5de4ba2cc8db0d5008fea52e3816b4a0300f3d3a8e4e1482492ce6eb0fc393b7;
  0x7599bf8bea5fe5553cca2bf618748077c60715b9f6741ca9ad14094d456c45f6;
  0x6aca77a389521487f310a36cd273fcc351600ceb2571a37c9dc183ac873aed89;
  0x116b71946dd109fff0c7697130cae698f23c50cff0410fd3ca607beceed3d737;
  0x473b4d2db63435e1586a726eb428ef11c093c51ddf741cb583ea3b8c5977b468;
  0x3c8022a96903def34d7dab7c6eb973474ff4aaa1ad4d083e090ae3b3b2624266;
  0x46274da16eb6c21486a4d3b83786ae798ff5289868af752a00db033e6c661c56;
  0xa5c0c7a5637c138f62533a1ff969ff87f0999a4e5cd59792dde890ad3bb677fa;
  0x44aeda2d8c8ce4113765d5b67672bb1486baad4f218348370de3ccc352c71bc8;
  0xdccebbcea748c0bf8998931389d0d2d30080b281ecb77ca33f3862c32e98ee3d;
  0xecd81eea9b7c777fba7c92293a88fd7884e9ac089612398b0505d4c3dbdb4372;
  0x4eae0320918a5fed9d9b7fb49fc851bbc8b87caa64186cda1225ed086d6244ef;
  0x89910fcfb50b7a779a7f8935a75278168eecd02fc995bac58b54d013bf7d5a5f;
  0x3a3ff4331104cf9f5c6dd1ec442844422473046b425d397aaca8965dc1804b75;
  0x58070c23ad1f6985d912edfc14fa3163727dafce4beb8f312cd265537f367329;
  0x91b1f8326c45edb76855a82afd427d006c06185aa31131b196d7e7e0b4c87ed2;
  0x7cddc32b0052f5154f69579498519729fa88f72a4c422237b2e4ec9be681ef20;
  0x70a03cb42828490cb36bf86daba2c5487357ce7179e70c7a650a690cefeea433;
  0x243580d69eb54a7d77142f3548818bc7b4d6cf1966d204ed1311a3b09f5dc854;
  0x7044d389a191b0b6c0f53a8e989d5090ef537bfdff4118cc0c0b5d3d0d110a51;
  0xbf8b3a71d2b3964166e4637b3f04d8730eb4e1395108d00b6af4050a73308461;
  0x04e232ec43553e9c29df994eb5bd538fb10f1410c250c66b3e05dbc699c018f1;
  0x8cd9a3c980374d998bf6dc6705f0812e5e3526844090d1e1c19b3e762750016c;
  0xca4dcd3931405704ad1e3e63a82c33f5e2523cdd927454f63f22c090d04b5635;
  0x86bf4dc245bc78139a1386fdc9426d41335544cdd513405ff696fc8e88800e87;
  0x05804e59d704fe056c9124c282c85b2f2e596bd6e50ca259e01133d3a84323f6;
  0x24db124a62b744bf4274dcb6855ef9608ddbc277b6ddac337e6b890d27a4b1f9;
  0x26cd631a1f1a18945403919adfc8f8a230cb66a1edf6901f58f8dca4fd274158;
  0xee7543b143e6f53d7e696c550c4841cd1acae3afc75ecc4756a87e5a5549c06f;
  0x78c898ab8ad311fd687fc02d8dea3918a21b79c8387ea29c6541e5cc127e5a94;
  0x330799ffdd6f5bf52898e4d379ee606dade148cc42b6bf1f20b0e66ff7e52834;
  0xceafbdacf07455aaafc7105f8f1af452eac769d53351ee90696f173de09caed7;
  0x5f6e15e6036d89da1976fa746fa4f19f6aa0883718381cd5db590b7f59c70aec;
  0x7e38f11a34266de98db1e0bd4e7bd2e46a4e8bf46ac67c833f879fd0c28b206c;
  0x2a128b4c1973f3eec1ee8058bb759e15fcc762406802ddac2423b5dd216fe799;
  0x76fc259d59bffd28c44d908f8f3bd1c7838d6467a84cbf44194a5c1e52dcc8d1;
  0x875cec849c249b46eefd7b9746110188170994bd9e515e2265f70f3b4e070d26;
  0x0e60fef337bf9004d6791cdc54f7ed9f6509771196a261051f2cf98c22841992;
  0x09e739dc1dcf537d34f1f45f2751f0d54d33e09521196a3c39f4d2e2f360c481;
  0x574021eb0275c4b262fb46a75a6220d65967aa2d13d6348b5823eacc337c5e67;
  0xd6edd0cb1f99fe2cb99601fce9d38a59560fb313e3af8d7108ad916ba0970cf7;
  0x7da2b607d695fa480a9acf825723b69cdf84ec7e1f13fa035ab4d9f2f4a0cab5;
  0xc6d3c7a6ca78881c81caecd95111a43e3d38a4b377dc65705ecec5f20a80859c;
  0x0b52bf4f50e0e918078f433caf5cae506e29201f0d1ebd8ebb898eab2dc6826c;
  0xe8b7a9dbac0adf241edd046aad036dd0b4c15db0aaf6f7972f7570d37bab6d84;
  0x85e89321db75e2f2574ccf65a55cb9348815a12b70bf092b21fefacb9c231d03;
  0x24fe68703b4c235065bd5a6268a65a802d37c0e5a37f4bb9720cb0612407d12b;
  0xba466f5b21f612f0679565a20598b49e2dc6b8f53b11896994fccb53f4b0c457;
  0x7f3bd0bbb5e7163860bddadeeb582d6c0ab67290bf7d2f2df98b60cfa3ed72e3;
  0xa350810062170a17f04c88a5852ac00f4091ca53f16b8571a14a5b89f4d46a78;
  0x1a088a566e575699fb96b9b1c3616d01c9070d978df40ecf3880b2a77e6d4705;
  0xe54073760d4fe8dd1ad0f3364650feded97aa3f54219f9923dea06b6bf3d4e19].
Check (eq_refl true <: done (round progpow094_cfg 3000 1 (rows_of 16 round_mix) 0x407fff80
    (fun _ => Done (words [0xdc780f8b9e4471746d1edcaa5017398cf9c74a6cc9143c492d3ce4dc135b9668;
    0x94299b6334f607ce950591d54fcf7ae19623d071992d74a1c4f36db9d9d132bd;
    0xa800fdbc533a507be8d1086819fcd1556988a5a399d46aa667e00fc6839195ca;
    0x9395fb55d23d0baabdc0f5a0e06deabf9ca4ca34a7e0960b894258b7ec6a6425;
    0xd541dea4e3dc56fc7cf5b8ccff917631896418a36cc6fae5f084856612c2c818;
    0x5303a78e012c317baabf0083f439df79e215ca25288b9ae736ce0fda66261719;
    0xc5bfe728cf8824cf41c86c1929477d45e95cdaa893a13300a57b42416ea7dce4;
    0xfe5eb067430a094a6abd045e98d7d10975d111dedebbcf995c44b14e7e423603])) test_l1)
  (fun mix => same (concat mix) round_result) = true).
