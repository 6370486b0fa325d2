(** A test vector of kawpow/kawpow_test.go, replayed through the model.
    The dataset items (and the L1 cache) that the run reads are listed below; they were computed
    outside Coq by a separate implementation, since building the cache of 16 MB and more on
    lists is out of reach.  An item that is not listed panics, so the check also shows that
    the model reads no others.  Checked with the virtual machine when this file is
    compiled; no proof terms are left behind. *)
From Coq Require Import NArith ZArith List Bool.
From Coq Require String.
From Verif Require Import Base CryptoModel Hashes DagModel ProgpowModel.
Import ListNotations.
Import String.StringSyntax.
Open Scope string_scope.
Open Scope list_scope.
Open Scope N_scope.

(** Eight words of 32 bits, written as one number. *)
Definition words (rows : list N) : list N :=
  flat_map (fun x => map (fun i => N.shiftr x (32 * (7 - N.of_nat i)) mod 2 ^ 32) (seq 0 8)) rows.
Definition same (a b : list N) : bool := if list_eq_dec N.eq_dec a b then true else false.
Definition done {A} (r : outcome A) (p : A -> bool) : bool := match r with Done x => p x | _ => false end.
(** An index that is not listed panics. *)
Definition look (items : list (N * list N)) (index : N) : outcome (list N) :=
  match find (fun p => fst p =? index) items with Some p => Done (snd p) | None => Panic end.

(** kawpow_test.go:106-112 *)
Definition test_items : list (N * list N) := [
  (200397, words [
    0xc2ad2277120be57bb239a614156a2fb12d7dfb912bda41b1345bf69b7c61e58c;
    0x3746f903f98d2825d3bd733e86b4c8fbed07b5d35465387eb6d4b82a0a846823;
    0xea27629ad38e8cc9a7b3f6bdfe3dc0b7e91bc95e9e882b580d751db7a1a364d6;
    0x95242410f558ca1b6ff2f1e1b5ff7c3600e28abb7257c1d572759399d736478f;
    0x31b1f930ccf703a3643fb69c210968eac377fe7d1c4d423d7c7ce4828be3ca3b;
    0x0d9a4cd3301750570198c0f0020d24180b104fc634f7d97a8d2774c80893165d;
    0x8cf5f83c6b121389de06b27c234e22217bc5fd340439be888f774f609e050347;
    0xfddfe1095d995c5764bfd13c4ca4197e9f4c627933f65882149fbcbb009e3c32]);
  (257519, words [
    0x1defdfea62a4eb87fb906d87002367094fb7a6144ffe3c894b98b639bcde107a;
    0x97d822dfedbc5f98a89b8eab657d15c767351e495277034a840e46108f85043e;
    0x342c4b53e108c79e23e36ada5b23cd39df69f79053556a51ef8c6b8833f3a9c9;
    0x9f932058edbe4c24a365befcfc70cf7315e6b74a6d8a9b02764f0ee8801f12d3;
    0xf128049b70fcde5b38b58a3ab4dfddd664bd4cb087a32f694a9fd9d730a32ba2;
    0xc20624aa9a5ec4719f917ce0f3b689c7495efa8256d6bf78dcab0e56f2ca3a2f;
    0x572ea990cf9bac5b085c71bc1416a1c24a224f31b1eb46bdb2d854b319fa2ddd;
    0x231f1013fb743b245afa2f92a5bf7e54b437a379706fdeb60ac53af9f114d91c]);
  (263248, words [
    0xb039096f30fd84bcf7232b5d52b864d352040c29b304bbe7d30c5e14c7d5611c;
    0x4c95ecbca66d819dd30ab2251c66bf7e4c8e000202afd4845c695761cfb971c4;
    0x3477519e45d42347f4a707b73d5796d047f587cd54577302830782e632aa8475;
    0x2d539dd30fd454853dfd3282c473fadad024685128d52d46af0358f0fce92275;
    0xb22126b0d13c684cb462e31ff6b1067f40f8134086995d25c550163652abac92;
    0xf21b2e796b92312daa80e40d2319547f3a2ddb98f9c9872ff700a10d0ce4610b;
    0x813378d423f388641b5dfce3901c99646451d88ac8b03d1c2aec26def7aab593;
    0xb90bc5c60c18a6fb9e8c3de67e90c87e477aaa56b00f63fc2821b295b674a69f]);
  (279600, words [
    0x273ec91051dc47ffe245f22c03c90af80199fd9558aff9bf5891b474290e32e8;
    0xc466685d808914c163d5e6d1ea78982f9ca51ad01a7a8bcd8a5744fd3d893bdb;
    0x6199b3ca5b6b6db2d48a2914e11c785fc893342d24b213400f0ca424c9fd11a5;
    0x4597abf48bd6765014a4985f770d4346943b87db617fb7f8228360c03a1af076;
    0xb1349ed199d7c4ba538378570c94a0f2cea4cb7e05356b11d612e56d8bfaaac2;
    0xf0f9bf0cd7f214742802bc003b62d814e68dc4aa195c8f12136c0dae1e44b3e3;
    0x6d1a7541947a7fba7f56882bcc8cec26a099ec4ab362dd475a2f4a0bcba29161;
    0xe3dba859cc247e6837a1ba8721e815c0a8a6bcd608c817e8a68dd4660e95d4cc]);
  (287431, words [
    0x69faeba1d2623b16d3a1234b7974dbf1645046f36a2b0cf1ff38ed656531796b;
    0x2c7e10a80ee297e6d7bb346c9b756fc83114c336de70672fdd9d0831e26086ce;
    0x805e4673399972fa48af7035484c1bf05ab5b20c97e40535e6c303aa105ce833;
    0x9da66be76de6be7c58747183062846493dda9bc2b76fde3a09b39a8cfedaec91;
    0x743de7c8125f56a96135c6d7010298429b7d97da4f4d545d29ad0e3af622bf93;
    0x8662264f7609547b43bfc41a3f46a9f12f8098b4136fd3cc78b38cdf34842d15;
    0x1cb0e4c4885fdf3ef61fcd7c9cc561ed256232c8b0382736757b84c348c4fcbf;
    0x4a1002740f0f62aae4ccf9da44de4e2b1849b8d27c8f76821640b74215e1e8c2]);
  (330832, words [
    0x3465f68c5339c3ff900690c1c81a5c1b62087f2d5aa11570e5db6053cfdb80b2;
    0x1c74a77daa0535062c37eb3c81f23b1e69a41c806aa3c263dc64cc6e27ff537a;
    0x2468e2b3e44668cd38a586c74768e2bc3ceb033a078586f57924b109e3ce9811;
    0xb664ccec1d50c95172cdcf15237fa78bc46cca97ae095d3fb828ed9825c2d98a;
    0x66dc015fa3c7a6f098ac875a806c3ac8e166b9c567992e41d359b79daa70210f;
    0x15651327e14f9e2f500dc93165db8ef66d2d6369f9fddb4c1a558c75441bf848;
    0xb3fda3abc03d828b68f92e0ceecf2ed55dc87097328d325c4c0571b3ab09c1a1;
    0x2bf47e82840e8ed7ea5bfb7cc14b006c3abe20f190926f9c0d15d1ff5e1eade9]);
  (393250, words [
    0xa26b8e74f9812e92ea94dca9a4e8cd9681bb068d9cba593667ffea0fde5ebf0b;
    0xabfd61532bbd777e4f9c68d66de95c177aac6a44ca80084f04a45bbf966108f4;
    0x0a9f6320ea8cc9b49606be5e6efb5d42e66a2ffe45a76c1073c948e9f84e6439;
    0x5f25940f142c4f8227e8401697f43b0b2b35fd73b18e2ade6787b299430d722f;
    0x9b5b45524734e07c5ee8813caae2ce26e82c5c2ee0002912e028e895c646a560;
    0x862000e7deb2bff0981b8ca25642b4affe0b270d0567b2438d381af728298033;
    0x26933bb257bda43fc8a65c650880e609b8460c358eefedcb618e4cb750393f95;
    0x0fb0820af9f44e6c1d48e95189fc8e7e8929633432b5e7b9979c9956582c09ff]);
  (422615, words [
    0xc06a981b7a903f1d57b8c680adc91145c7717ad6eae8d5ac80e71720dd7ea277;
    0x7f5731cf65cf5b2c441a353cac24d464311728915984a257756cc1e1fbc307b3;
    0x36d80d57d9353c16e68ee06dfe44d04fc5a0b614d820e64cef14a708522fa9b2;
    0x882e47def8634fb3bb53f3cc46e64f0caf325a466be4977cd713a642f60fdfb7;
    0x23a7da3308c7466adeb72694b7bc271b32cea6a6c278a2f1bfee4bcd6bd97506;
    0xb58f04f2bb74864903f1f83651b07b451986bf58625137323376c13e83ca059a;
    0xd41440d4a8e1af32ddfd673e1cb438c452a24a06044901d9c77cb4eeb15feeb4;
    0xafe2da770cde92c5173e117a940dd02bc68e3a5ae1d9bcd9e949d03ec7497438]);
  (494212, words [
    0xca4211af80733a1961ef32527281d52e57ecfe65e6f289b73b62e311a662a5ac;
    0x0c751cee9e0d8dfca7c1dc3427c01de0443f1d86730a5ef6fe108737631f7bc4;
    0x603bb3d66c6eb9ad90cf608bd34ac8ad48c550291fb32c74f6a90574600cbf05;
    0x4d6d8c784675b58cb7b81726ac0bad12ee7e5d60991ffe1718310f5dc356a4aa;
    0xefb445152b8471c0e775f34267b6a9bb37c1f2d19f07df64ed39948551bf5583;
    0x7944edc56cb0fdca34a1ee2f59d6a7324ddd46ddceb7ff2b27741154ad66ce96;
    0xac6040f84d7e50d27b59a374c1d37acce99e70dda34f0463002729923fc505c0;
    0x6e96fa9566c3a6713366a7c85eacdd30d72a6abc98aaf7bfcd61dd9ba34428a3]);
  (497385, words [
    0xd3d35e75faebbd789b58788a5437ae705d85301d22f2c725ee1eff62da98698d;
    0x93a45527fa8429a55a4c9f4a8abaa89d9ffffc8dd111421c5e30bd71e8662f32;
    0x17ca3201d850110b7c82cf0142c54cc865e6b42203ea9b895a692c79da461f9c;
    0x91e47dd9cad38d95bb64d7c695fbe32e1b5bf4ed6a43aaab5ef9cf7d58bafb76;
    0x99ab5a67bb5f64692dc7a3b24b17e7a802bed45ab48e5b218c9e302b30b3e445;
    0x19a6d71ea099fd0bd6def1bcc086a9a4649f3b489d71fd4745e3be50be9db597;
    0x0f46c197c655fbe3c647818738e72d5dd040bceb2e5ac56be5f29c879478e63a;
    0x1e176ad98eb630be21b27e7842509f0db1242af5616fd3546875d717e5912adf]);
  (706782, words [
    0x6dfdf8008056f2ef4561592b15843267ab434ee03d518264b3d6f26534284f4a;
    0x9b76ec6876e05fa3d8c241f6e9a837c90ee7caa5cb9ce48534c32d4ace6e8457;
    0xdf78679d77e1f0fee766dc51cfa13f329921ca3460c2088c65344d04b4563a97;
    0x185fa80467886edf9439386274478c42ce604c08563af96654c871018860b78f;
    0x2f4a302420075ebaf01ae2a3bd55c59b42ba954048abd7e9d8edb17377bafd06;
    0xe659547ead74dd8d096f75bddaa104ab8d23dfeed7013d356716db7caad01e62;
    0x73c59c6075d492748f066365a0bd164354ef43e0fae4aef80fe21a561f94075a;
    0x7414d23d286726186cb270dcad59b1326012ebdaa97a32f8fe27ea8e5c2edd89]);
  (724566, words [
    0x9aedbf04377b782e18de80058606e1b9866c37a5d7eeda6f633bb556824a1733;
    0xee5f8c0ab0be20c0e1ebf77c9acaaedf3081e91a1b5bc6b793b4ab01b659804b;
    0x946bb2e10b3d47490a11be2935a4bb1be94480e185e63f18039b4cd561acadde;
    0xcf6f0e49675c76f1665b02d4ffc17886b95dffd47492024fb1a11d25662f328a;
    0x46e4af66902c6a31eeefb12cea8cf7304a222233dd28365fa5eb6d84c45f9ac2;
    0xc72a199dc63c6325f567cf4a5e85d2bdeb3c2a671d2ce28c8c51c0696088c2df;
    0xec9ae734de81cef5e04d1b9d8e74ee5930ce7fb5f363b0f650840dcf672799e4;
    0xa1f3e3542c897a4567f7c5f745f5ef2565760cb84a591195ef349375f785ca6f]);
  (940812, words [
    0xe5a758109073a60c007528a2af84c360bd377507d875564615f8ba2207ab9c84;
    0x6862f7e9f51aa4610e6ca6fe289a31e6fa7aab09ecbde1ee66ce384d7cb0ea19;
    0xb1d710ed7324e7fa179129609df064c632166a6b0c01258f743a9c5bd44fa13f;
    0x8013d62ff2833d7e155b0fdb44f0b21d6b1973def28994d27aa4a1a3c5721dec;
    0x593bfbe93fa1196433e668b077bc142a2da704dd0a1af492c5e2f3a35c04eae2;
    0x57e0aa2660031d22237dfe5914111b55c1d80b6927feaa9714368b0dc1b3c07d;
    0x8fa165f84dfb8c90f64674a4842591b460a5a3ffc79a4c34029d1b205801efb2;
    0x141d4b76274b89296b849039dec035ba44aa88f8759c82939d6ef9782e1b3060]);
  (971500, words [
    0xbe74fdb92d0bbcffb94fa7b7b81e0385140cc082ee902a14763cddebf17e19aa;
    0xf483fa696ee787ef756aaf0d41804f7722477671f53e3da5c1921c2ea75f6e63;
    0xe610c1372d50a2c12408f88bf83726501609f389995180008cf9e683367dfc2e;
    0x5f44c4f090e574884854ccdc5d77b30117cf0254048f83d1140cc062c843544d;
    0x80f5f1bc43b523fa3a03f52f87855bbab037562a6d0dec0d050415bd05011d8a;
    0xd9fbe0de47e2dbdf8e279d4a25307d9a463b37ee6b010dcf47779d304b296486;
    0xc4f39021df0d8380e5d8b0963d1060cdceb81ae2ee12726ab7894851427d47c3;
    0xb3d61c5a00a2cf6cb6735260c3e9a45f57261d40e9a2636ea5e1aa369dd667e0]);
  (1095984, words [
    0x8380b5e7a9ac2ef579d52a50de7b452b9c1ea04b046a9e4f903a911852efbedf;
    0x6d80ba947cefd0243e8cf96a7529a17fd787a6f905270c2d76850717127daca1;
    0x16f1cb50f62f8791525be7e2b64944c54058be4067460fa16ad2522ce1de54df;
    0x5673e141c1980fb6a881d52619aab885af55133b6c75f053b2254c2e507f9364;
    0xdfbe0b6176c3c3f272539e0ee33dd991d74ea7e92e0594050d4436bf060697be;
    0x057cc177b2f244d5c8a32bfab7ac9cc92de7d8c2a7b42a087fd982e14914e32e;
    0x8794077a494bfe803c0a0aaf4afe0378c63236cef126c0e0a8c680a73f4ecdea;
    0x6f2134cbf5d5640139a0a318e34a09bbefa8500ce5b9e911fbe0acb6339db823]);
  (1108905, words [
    0xa14d9109c8e57d11424f4fa693fc62b8c248b41b0786051f9035021438c23493;
    0xd0447c77f45a856a7e567e713e78ff649297748d6bb1f3ad94b45607ca956a02;
    0xb7c27c3ce6fe315ca695583fa50b08a93e5b03d4f32cfaabbe5209133f9f6af4;
    0x84b88a64c88e0bda91d56a3bfd3cba899eb8a6fd33fac533f888f29f960c07af;
    0x223e26d66aca32b4fa9981d0ab4e9163fcd402f94f099417bcb3374c027dde6b;
    0x8f109ec3eaa04a84ef5663a301844b567b35b8d9af6c0bd90b8d6be535223fea;
    0x294943ff9467d181c02bb0a13edcd9f687068e3b090e8a9a546feca933184f98;
    0x3e4b8996719628e768e07e4cfd76fba6c698b4e3fad677a02aaa97e25ba3e8bd]);
  (1140551, words [
    0xc4a1c74ab3e4eb0e8eaea7d73916d560838cc01c4b24a315125317f932f60bc7;
    0x8f53cfc223edd3b623525f2b3a5c8f9715b4587a23194f795a40dfc1cef4dad6;
    0x2dba2ddcfe6bfe8ea6b86c1206455fd8682be860772d44fddc3d8f81871f10aa;
    0x8f845a07eb27470a4ff14a6eeb2b26413163ef39b1415e81bbe33f8ac334ae24;
    0x4ba1b4ac3a9193aec5b190785e6246acf08fbd020de51c3631c3e4e5a5942395;
    0x17ed6e6a01d01b53d805f65d68cb67d7ea2c64772a0486681776a14e5db09d85;
    0xd5a09deff70bce2155dbe3cb76faa1424f658a1258d89a86ec0451f5f0e8e2b3;
    0x92b6807470e89b5c6925f71d76842beb644e4392f2d533918c8e50fd7dbfc706]);
  (1423738, words [
    0x746818462b1be59338e05a362fdc148208b5c63e509ad1aee7c39343bec26b41;
    0x81acb6cd7bd75ef3b11e7a44703c8f452a9e6505a55981d303d384abe18d7ca5;
    0x4065b5a1015e44679677f42540092e5e395b90cfb0bb200e83abb78d25c19ad3;
    0x3f68e1752d595655d12ecc75dd2038b6398872cdb251adb05b53fa1a8a0d228e;
    0x2d9146aa36ec065f721dab6e011ef4c7a62da065bed5bf4eb34b97a1e7518fad;
    0x8eeee237415d64987b52b455adc750c6f40b109b73025a6157d0b695593b6dbf;
    0xd393941ee708ae00f46edc7884bd1e0aa09c52b83acb33fab57bd960f0eb9ec7;
    0x6f3b69b2603e6a04f974774a97c65900728201c2c6b8bb814a7f51c572342c27]);
  (1473156, words [
    0xa0ebef54409e4bd5a637598ccab79078c93a38e8277d095338f34d40a8a36530;
    0x594d0841ec6f7cbe4e485db1a5574b2dd0a9abefede5a3105bec5688f3448c84;
    0x5d216a98bac43071b57abb523e3feb3be60bcd9f7c851167a7b71c7f058af40e;
    0x9842355da8fb785916f1e247c4d19e979cb31598a6d2a31437481145eca9ce21;
    0xe821c15ed53f131393fcc45d710e1bf32e49df4ade5fa8065a9fb8041d905616;
    0xaff7a7aa4c03e3f98d67e3d69f1833389337595d6d69b0cd308832f21ebab99a;
    0xb00f00f07d7ccc2720f1136ca8251fc6289540c035cbb415e4959ca9b0235d24;
    0xaf34ba0a9ff6446b290218a6ba5c415b8b37f21f71af3ad1b50108468ddf1cbf]);
  (1512504, words [
    0xf0a25ddc06aa3269f0a69a3e8b89751c1694d89c9836826284685e66a0f07078;
    0x36f169b1ffac3d4ed1d8147b4f9701b72f9493be8f2a73f05cec6a9a359db954;
    0xcf3a1c90f67672e92025b973c1557dce972c2cac62f38c4707270865a99d309b;
    0x83c23400ddfdc01d1382cb186471df3f77b1f03b01566584d8cc8b1a06bb33d6;
    0x967a4e6e2caeac8156dee119536fbd2f91b5480babdb8fd7be793707357519a9;
    0x73c003822ce974358c1e35b285b2bf767b9893fd132e6d486bbabdab6574ce80;
    0x8413b3074a3861673b98247c8222b49b442e7f6ef1a65e5ddde1f0ee6b0dd99f;
    0x44a28e4ddcaff12ae507886aa4e43f4ecd23e80888bba30c1d7c43691bc1b019]);
  (1581919, words [
    0xc570dc335cd351b23be48c19b73b99430be034e6d7ec9cae46d7666bea466a1d;
    0x291e24075f2d33a8012dafaba486285683982983eee32bedf78f47f5b0ad2c14;
    0xc43f60f02ce61f913148cc42540a3db2c43d3e049247dfb5a95893185abcd2e6;
    0xcdb3281825a4b408ed264c9d8b5af28d88f6c4b59ffb4d4c868e145a1e5503a5;
    0xf1f160ce399e212c174462b7fc55edacd2c5d29e68b98d7e045394f1021d6263;
    0x5213c0ef5d9a804f6e8abc084e29119696d94342ad84d8022d1c1d25b9120a6d;
    0x46d12c8db936168bbea860c165f446ba0b0b065f54b2d1922c74c9647b30aa89;
    0x698a82222b6caf3119a5e5a7ee5d49f9128b6d2b27895ecff47f211a1f271978]);
  (1657953, words [
    0xfbf3ab3759019a918ff42512c5af43f9e171a5d337c1bdb7b5909765e96de6b5;
    0x9b5c40670e1c581f4ae49332eb0eb984f1d1e99f0c28b4f03a393d387f2d54e5;
    0xb897a25ea922bba08afc052184e2c2edf8cb410104ba3cc4ede3b3657dc05aff;
    0xb6f80b02358b260c6c73851efa0256527f40fca12f47108b9a234e32fcb52e70;
    0xd56d6c1d3cb715a3915815e904ed25b3a25c89dac66869de852e04af6730cb09;
    0x63fbe1026c5efd20fbb278d724ef39985aaacf0e5b55c88fd6ad1dcd64667b68;
    0x642dfc2e4ffed1e4219ce2821d7ea4501ab7edd05d12fa8c25cc7daba3b9f17f;
    0x1f43c103447c4b9442ee4992c709fcb46ddd26e9054beec5b6329d333912fae3]);
  (1896107, words [
    0x0192b05d334e093f9efc3e138c14e150de92584c731e8e44348381ec69aebd3a;
    0x8a85926f78224a95627975993317ac3b973e5a951fb85efd1db830ea35fde0ba;
    0xbc7c07af040c101cb5b4d99e21da00f66e5b28747329a75f28f9a9b64fc03464;
    0xa7088b6244bbacaa9876391a455a9c5ea5f5090d12ea3963969c9b7303b9fca8;
    0x0b4e9382a1275b1318aacc5d7e2635fca5ef914e22ca18ee743de65d89be0db0;
    0x1d7aadff4507df8345017bfdf3317cd4421667774037d21b861bb4ff5476ff62;
    0x228d59f36b7c99c9c50526e384a795742489fc46a84b4a5d9e8b447645a8b496;
    0xb8d86b6dfea282411700e3ff61350e06db94a70521787161865dee1805c6769a]);
  (1952524, words [
    0x942de74f44edfb0511f7ee4c4390abbe8e5434769834ebb0112210229b4553e3;
    0x36d6be39c66180a317cdf37b4c5dba3e1283d7619b1683bed4d287d65877fa85;
    0xc2edac061812e582d39d2edc16950d772242a9a0a95de69b08ddf316f6b43302;
    0x6bcd78a3637d614243e098931c7540a627c7621d1f510c5773552a4d3c81757d;
    0xdace6c2f8fc303c4f44586c4d1c1052dc154c12bf2aebb7672681c3b5050e783;
    0x224b50f6a38f2d9fb36a977f8276785139430357d85b7128f7bb2349d67c0546;
    0xc4aa19a32da237ead2291cc720fbc541e200f6f85c36a0e7c9927243f895b4f2;
    0x5fddd7b51f28ffddd8a53fcb4e49cdff3a8562069a52ddfa96604e69f732a449]);
  (1966369, words [
    0x7fcaa685579c10476d63aefd5e665f22b3f136c498b5872958a9977ffe2b9afb;
    0x8623d2fbbcf382a8b97e386edaca1b9975babf22570c1eeef21f41f6893a437f;
    0x21b39cd5287962bc15420a7d89a4c4efb63eade012a6358d4c946b1705913031;
    0xc7bbfc1d245c455ca5cb05bda654b0f89570f568fa529ec8262cdce0430f01b5;
    0xa7bfe530ccff8344674d715ec6a521fe3426cfdd51c4fc69d6106d34207e6693;
    0x535328dbf3afca4e656f8fca38dd9fab8f93c981fbb06445bb104653423fc98a;
    0x2b903b39dd97276f444ae38523ae0ed5a401404b71b72d6ca779a77cb1515c5f;
    0x8b2c5633710631cd20ac76838cdabae671edc165f12af7ada3435819b5a6caba]);
  (2087073, words [
    0x694bcedf253a40e77f1910e5974f953df3cbfe2bb149cc04092783df2bfbb5b1;
    0x76df89a1f9431d77f841cbc3cd863c44ee8deb9dd535caea8e58ec8bbcb71848;
    0xb0ad98b320753ffc836d9ca5b14e86e8b3ef37e30a99b6c808dbcafd6f142f9a;
    0x0fefb3e95ceb102497f395bacd7e3cb884e828a005cd95157fdb33c6ed16bc0e;
    0xa826c069f455c67389cfcc8e2cba32bd6e2d2b08d7dfde05e834b47017602378;
    0x3772dfb29f97f38b3ec1bde01e609bb0af0ce801d1f82fbe0446cc9d93ed5e31;
    0xbe054cebe0cc82ddd39bd4645aa927e7317515b99261667e5c470e367d33115f;
    0x583fc7b0b79dcb978fb6d23ce95566101db6baafd7abe7701b3f1dc74d68199a]);
  (2128534, words [
    0x97258891bd94e9381381aaa0a7534e5b28d6837114169fbdad8b44273190cce5;
    0x30b1a1a19598790c9f89160c0c036ddffd4e9488a126ba5efd2c9695b0b91e66;
    0xd9d1f222785a29452cab084973a716d41fa89118427ece21958d386047b43cea;
    0x149c9adc163f45612b88e8f8651b4ab237e4ea81db6866425d1894643f03b411;
    0x13b07e2b470ce564bd0b13afd15e4c5f670ce953f5b37747116c33199aa4a56f;
    0xacb35bcc52e129c0e5147469d56dabf379cac05d2def2139495d12bfa3c50a03;
    0xa71fd770255a8093b964d474132ff988183ea5a3ee6ffd029b4ef7defb873957;
    0x850163038ea6bda9bdc8ab7f9257a8cb033c6348515ecbdacf2bf539154fc195]);
  (2154789, words [
    0xdfbfce27f754de26c14d1323e3bea8a64b228a9b16847479119454d1afb32adb;
    0x773b0eb0e42440417c8e46f73d20b6a58b77a46aed77d5afab8d7305407080e7;
    0x0c5a867fcd9f2e2ca9d3adaa228b90f33475a07922d23a0be1ad2768be8a2b54;
    0x12010d9806756e7bd16309369a8e9ea8b8b7d0adf79df6c73ae89bf087d817f4;
    0xf9b86fee9926cec9700f83b1013f90d540e4979760d0553681622358744ae973;
    0xaa150567ef047d2973c6a7c195c76b74821b5e986d2144fd9e62c21352eda117;
    0x21cddd7ace40c35a64e821b6e063f29322a381df7e9189a92a228d327b3dc135;
    0x1e5df3bc0cb25eb1d20ae212a515c18bdaa33f1f43446aca25f3f719e46dabc9]);
  (2239709, words [
    0xeb5dd1ae8eb970dde91ae36c70c66d4f929b53c4e1d92f8c896ee7bcf08924ca;
    0x217c5b67cd277148a9ce63424efd81b358f5b571a3e75141ea65ca60f304ac86;
    0x2472402ce7a245ca9348a01b5b772ea78cc61342c0b23ee1c0282bab8c438546;
    0x916cd29fad7e8d3c6abf9dbb1627c2ef34b932c8f399f1aeb5e3f8dc82c42b40;
    0x8d5c75ff50a7f744f17ea2021556279bed4e10ad365da73ae18955b80f9a1c59;
    0xdf8bb5971a626cd16b098d52c33628051337daf8b0c7d862bbc28e0a7a6c75c7;
    0xa0359f44e7049c18cb9cae6c3753b9eaef71c73150be515f7e5ccaa6c514313a;
    0x147b18d7b8132d7d36d735aa4d5adde4c8dcf5f913dd81965042a453e779866e]);
  (2249138, words [
    0x9d8b9b3e7c4231447e0e6c92413a93178ca99d41f144abf95641b8ae989c7d70;
    0xa1237d5211ee8e2a36fd0b7ba61a3b9a12d1e1f3e492a6aa023895d63bf8cf85;
    0xaa8493befb2ded62e953e1f7476e3d5f5382acf81af977a5c5b1aad1e7727a06;
    0x7bad3edbad96ec0c9bc2411def2201487b69668f1bbb2217973f784bc810b6b6;
    0x8c886afc0f24fe06df0c524de37e484bf23dc0311dbd92072045620f93a77624;
    0x4b6c40a6002b3b742e1eb38b7dd7a6d9ba250d483d4733b3d227fdbfd1a94762;
    0x44aaebf6c6397a342a25740f5c3ae15770f05994b58a9514c73a61fba21a4b7f;
    0x30bd97634e7d0b8700d6b388ab2b559feb578e01f796524766120471ea9b8720]);
  (2256782, words [
    0x015ff5c4d5adcf22ae01fe001136103ec362c55087200d2733dccbf7b61f019e;
    0xfd92c9369e770fa54086e1c59a5cea2d00325fbb16e4864668c3b56f96392c17;
    0x1efc058c3e568650678c37319b0c2a693f93b2d545a1064e3b1fd4f55c9ea969;
    0x0bff53a780fe7eed69c62148e016c947588304300868bd78bf4a848458b2fb55;
    0x86e936ff545dccc85aa0df77fe7f84c218b8a53e772714967dd09a18cc29c76b;
    0x4bf87821f17a37e9fe12d8cae85778bdc8747d6645e59ff523204ad288f0914a;
    0x15a79cfc24e94d21cfc8880d2c96b6946d4f307db6962d934055ecd3d9fdfbbd;
    0xaf120cfbc76966db34e9ecb174f46c7cee4d1f2bf26feccc1823ef75b582f0a8]);
  (2336198, words [
    0x429a6a419057dfc5b472790a1a9401fc26e25378c21004257c72ac91b40e26ff;
    0x9982335943de23f895245a8108f125ceac5c6275c0a36183c6d5f2b338c5098f;
    0xda1ae983596ea6ee947a52f2c605e8b95c97f947c9349256bd78132e3d7c1a4f;
    0xcd5fa845bada0d56fbe49d34bb3dd934226fe0638b8ca76114553f704f256d32;
    0xcb624f4b55d0e33295b2e350371cecb28e78adaa90fb445edeecd9de8bdd6835;
    0xcaed1115a0b989fca45067c29d4bf9f77c8d6e553162598528cdd6750e4960a9;
    0x4e7ddfb8b0ed0ff9c137d434c5bdd9a821ffaa11f6624a1a17157d82e3386092;
    0xb01d105b543d29d189c65f0805ed0598b279296c5c8c2f30cd5cc6e56afdf2df]);
  (2364743, words [
    0x79e52896c315da655330ee5f1d81726a649b8fed196693d3c69f366c1a43abec;
    0x7f7e3f42c9dcb7203498ede435d59b90b4a8e54ec152e5b747b8758ec52bb41d;
    0xc92d8205c578bfcb095fc8dd2cd38e91c8a0d9529142e497f53d0988e0e9da11;
    0x7b2f4a8b580dfeaa857e68b3805a02d5bd64618c00773179687234adf642eb12;
    0x7ea7f6daf9188b22fe5684a156d7c085daa2c901dc5147decaa3d4b63ff320a4;
    0xf761aace3a728d1eb090a95489d8d1fa984ca09092be9b8fc12c16a4a37c3d17;
    0x971d978c87f57861eaed0279bf34aed0cb75fc86d93780c5fd25e4908abd5cec;
    0xa3471e3f9c3a145772bd6021828e47ca2113942e0a1463b42d443fe1e142472c]);
  (2773731, words [
    0xa18c2a07d0261532a49ef61637a702c48b82a28da6369c1a18cfbed91bf442a2;
    0x3d59c1ba5df8737efef121d8fbdd0149c1e16d3b61e9e0ba76749880c1dc5feb;
    0xb52200f38fa812f7eab90e407fe03b2c6f97bcc24e6b23afb522486a0bf5df6f;
    0x3fd66b202365a3b210b9981f974cb54f9f6bff8e11f74fd9a376d01418b66b6c;
    0x9ede2c12aacedfa0aa48f3552abd8c907a6000193b12a2616322ffd21d87874a;
    0xa96f2ca630de10ea39463d3bcb35069076fda9eb376cb579a332303a579045b7;
    0xfed9caf96ed679d5678e97e0da99fd4b190ee32cc366d3bc5dd49531ccfc9ac6;
    0x2e9eec6f870e14020c1e40e0004827a191d7a5a8fc00caaa3fcf53540e6eba84]);
  (2792198, words [
    0x31689f375f3074e34863642150ca64837043e59c22d5a2ee562bc33ebdab6f53;
    0x7228825c19656cd759c9b35d306d6237dfb203257332801943772dd65962e595;
    0x712276453b9911a49c6c2357c0e4d4fbbbe03cf7752aa682148d74c87dec70f9;
    0xb5379d44d4e18ded2189aa54deac53c3969610ea61892407f45679736d0b6062;
    0x768cdcfc9269c067a7ed55fcc2ae69b63a8cc12007f915bd7437ba80b407272b;
    0x78ac13adadbec0485409da4d189c03b098302cb099b47be751828ed41f9e6a6c;
    0xa9f26e29b635b4717dd1489c5689c119bec1d9f569a2c06d80d7d35e8e8d9655;
    0x6db064f4a03e3a855b6047253ba6fbd77680cd29b6fce3f48124f81f9a40b30c]);
  (2799920, words [
    0x4c232b6f721c1543a975831dd6b96b24eed64912e855c3451fd8500e76c48ab6;
    0x18a8c6030ffad51baa1d36ed9a16fa3a99572db56f7c2a5e5e43501d0d0f6fe6;
    0xda4493bae852485518b804a436bdbfe0fc09c6e627231b523e3ad0a293159e1d;
    0x6032192c84dd7626e15a84ef569e23f64ac49005b3d6e037f69e678c23627dab;
    0x43989126ea0ed261d2a044eb02c066950a7c9b5904e7be9246f43fb1e56263fa;
    0x23aec73746ed0e8edb688daab26573ad187e298877dab2aa0062658f37731c85;
    0x58da6a3dec66d45323a6d1e7bad9b7d8bffd37bb58c530c7c5398e7d85158ad3;
    0x0a04d0adfe0f41c6f5bfd26cbbd898433904b461f5a895d98f3ddbfa0045479a]);
  (2960021, words [
    0xa4ab248e34597aaa7589f2cb353513c3e8f4173411e203bcb92139abf4e222fc;
    0x86334b0cdc4098772daa2a4c615151758bd4520a0cde8a63be3ed486431799ed;
    0x480ba131ecbe193839f7c090470c4d3c09de58b9066ce0ffe081bf28eeeceb9b;
    0x0301464eabcaad052859145218b0f9f8dbb74940c966d83c0c19f2cdb89a4e36;
    0x6c4aadd6454c442dea9651346cc26ce7f1d2880e383269a1e18ad95f58878ca5;
    0x94e89ac8dc82b3019c3414f3dd48800e874b9c1772862e07765499a62169dd50;
    0xd51ca0d4b1441c5245fabfa66080d0927573081d15b5701b90269f5a84e92bf7;
    0xda760d4609140eb384cc92f616e9a4086faed518e4829c4ba57158c75bac52b9]);
  (3031557, words [
    0x4569c773e30cab7eee83833d2f924b6f0d06554160f56b4cd10f5dcf5d1a91ba;
    0x129174c1f5635adc1c8f833d9e75172ce331838d074ac241be8e721dae1407ba;
    0xdb2e364b4e6bd6e06056aa45b0768e1ae40beb9b5c4d0e06d2c6fb27b6eafaff;
    0xb31f2624adc12c47fc5b38464ca9309ed9ef7f3a76d46c12d53858038df187ad;
    0xbecd463bda305debbdc2b2781dd812f2bc5e7495a5286ad316bf1ed3cb14f679;
    0x0e45314f180bc9351b72c4b507b680dab1eaf0373f696e238f703316b828e0de;
    0x58076208400d0da94827df12f2837db81c27a3368bc23a242586061481420808;
    0x1a91c15c2a7cb047d5ac8dd03105c4e1563002688adf3210b420f743a5f41009]);
  (3149208, words [
    0xae162c41a6e2f329613ad2c21891a4f8c43a78459345f9c75f8a42a89152a7f0;
    0x40fd8c5500f8d3940cb41edd691d2ae61210ee39fc037ad3803f0dff7a4f7865;
    0x96ba543c68af54c41a9c8c8218f5862b91c22068a0b411fcf29367d9cc48854c;
    0xa8483a543a683005398e3d5226375522a91a94c355cd989bba776ff2add6039c;
    0x2688bcecb3d11c92129cb3e44ca48956e37af151aedb29a000f7bb2c8e678797;
    0xf6d7808f746af97000b5aa1759814572888f7f01b6ed5005cbd24ede017d4a7e;
    0x114dfbfb400e42d88ee8ed57fdb7c0c4669783f3237025b0deb1898c07968e39;
    0x6f9378e130d18f0af78b5508d0efcb8f9b47e4f4e4a82fe9bb0e4e9c5e32cd1e]);
  (3203500, words [
    0x281130b58227a1147cc84f5f06c25a53cd929e8a7883435c677e5bacedccad4f;
    0x28031cec3b4c665d23f508d1e87fa1a28b679c36b97355f5c3cde1c65fe19791;
    0xa36b528b7a99e839bc476d6fac54b6f9d589fa4575afb930869cca5f97d0bc28;
    0xbda6d384e3585d3fd1a8bc5b88392d64e10f954683b7bb2fe47f64a78a24af1f;
    0x5b05a027000d13ebbf430599b3dd1c7f27d765c14bd1288757e22c517effad75;
    0x6cf59c858c1e506b3b78ef292e605543d37355906906792199eaab66b738cd14;
    0x7a732c9924299044dc3a5866dd8f24f9c01f2445ae0eadead6e7cc9cfc74e919;
    0xf61d7fb5b3c0a74ef62eff04b21b4c4da89b63c501efa4d90da9ad7a3d07759e]);
  (3224097, words [
    0xa14f1eba2794e38c301b3bc65f73af95a88e86e21da1429af6a81f9fdeb556e0;
    0x31f824eb6f61232fa9b6ea78d56ac2f800fe622ec7e5d4e04a2a9d0c62438412;
    0x8b64a745287eb8bb77458bd0bde9f3f35072d581d132c9e205367d8bddc0f59b;
    0xcb8361c3e0a7ba5a69aa7db2aa10f732674a0d9428fc1c83ac78746d6727d38b;
    0x329953186cc4a0c6a43217d0a7e0914e8394c0a1a7cee88d51f0f5f8feac19a8;
    0x69bd3366382fa21bebcd722b88cd24f08bce902ae63d60df98f547f47dcd3d60;
    0xa909db606bf61d60d658715b06640ae53668947df35358b287172908416c33a9;
    0x8641e3a413c0bc9d4e9a1968240a40ea12f095ffff4b80c0ec86459ccdfa76ae]);
  (3252362, words [
    0xc1da72f936d418447fc6d13412efcd7f6763f26be5aef1525cfd1eca7601f24b;
    0x9a85eeef7b51bead7947e5dcf98ccaf448f4c667b0f5821bdb6193ef67f84577;
    0xf2aeffeec877db6cbe0fde296e72f0eb1408d7df368df7d4af40d19e0ba4c9c1;
    0x487869d71d6c23a7c56ba199eaf555bbba6563f245f5f7a9db031233eb4fd0b8;
    0x882ef84a36ae2036b9c72081bf2034c99625f19ef80f4a1ea03a9efc87854d82;
    0x80457d42eaf6d124a1f894d1f1134deddaaec9a88eb1051813834e245cf6b18d;
    0x8f558b4e30160dc426fd9772e126ca995ae4987200ab8fd85989cfef017e47b6;
    0xa87ef51be076d5942ad5bd5d5747c1e85273189838cdf8a56af3955b7023e69c]);
  (3398714, words [
    0x993d07ff300d5ea74e985e39e178b83c9a726a13235b8ff4dcf0452bce7eaade;
    0x9a4d120012a2eafbceb9b72a46cc1a09aa50ea25e41a4d2a08981e8ab4caa4c1;
    0xb934594fe94fbc1f5937527d438fb0942e85fb6f97635737ed70d817dfa56236;
    0xdd0715a22814e3d1928d31fd183cc1247860e632d68205a5664a9d36bd4bd4cc;
    0x2993b6f8c385cfff20e43da19a115a3586e691574fd3013ce0357b663e4ccfcd;
    0x358ce82b315612863537fd75a956f75aaded7b7c573000b517eab69b9dfcdd83;
    0xd8987477186c0cad67af174d195b65205251da39aee508c5ff127e44ac53c8ad;
    0x79632c35ff9faaa07059f8e415595378805714a0cdbeda83c670cd9fc11eafc6]);
  (3447420, words [
    0x587a76ec6655aaaac116ae8704af27eac7eed91ffb07483f19b785c49d0a03de;
    0xcaa636f433182b0571d9576ae1d81d7eca46d3210d1a51e7716b98b409970a02;
    0x2f17928515601fe41e41c0863a4f146c745cea9b7a3896bfb0231d1717ae9f00;
    0xf5cd86db3ee6c22aee7b922bd442981f019fc705c9a4756e650c4f32580ea211;
    0x3f579475cbaaa82683b2caa99c27b516d3bc09cc6e9cfa73729a541c7d6f7e4c;
    0x5c8e7025cc966d2e22aa01bb822bcd073ef8b301903917d5f0b48af619bf7fb7;
    0xc3131b6168f7c886e4ff20b6811077476282aecbbe812c409e4e38db442b6826;
    0xac02386a2a0e2c78fa6eba09320e9074001ad7dc81d7d74e0808fe7ef0c0dc25]);
  (3525178, words [
    0x952855bd8ef647bf478fd0b9e2993ca592365b203ec4bfd5fd4a0226c109e1ab;
    0x47697eaeaa759594517529ddc86291efcb31ac5171dea9cab4c6ad58d7aa8505;
    0x4cfa6fb62435ca0b89acfbbc510d18e21f628be8cbf90d46123642e9debd6e75;
    0x4a2eeb40a0898190aba93b75435e92b35e5ea81fac8fa74d2575cbd953ca07e7;
    0x96288fe4dcd39d9e270dc472a8f3ce29b04bdb175ba0032ebbf614c213a1d6e1;
    0x176becc813896c8a88d832579c52c122bec94f619ad3fe76d93041c7fd6e77a1;
    0x99f7290336c73b7bf4a33a4f6933087361724ec71a5bbbbbb3f45fa1c9c952fe;
    0x00c8871d632dca80bd9bf560a1808624aeefffaaeb73a08517d5ef4e57273681]);
  (3719130, words [
    0xadb6c70af092f606dfdf46d2e7b8076aa6303f82aeb917998d951ec9fd0fc2e4;
    0x142d91588fc991fca99474a78b7cdbd2ae7282a57445ac5469494b7fc2d3ab35;
    0xb65112d32aa6d27d201e7758259bb76dabc2dfde04af2f4bcd2a5992a2c40143;
    0x0f6718c1fb0153bd07e05f3f53017e9e561ef65b72f6397a101215ffa8c31269;
    0x41ac596f7ad13cd49d6039033a6b7828fd17969ddfec752c131fc9061a3d4b42;
    0x8324e7c0bfe1d0835b83d2d01b355b3b817a1631cb2718ce967945ece3fafd8e;
    0xf6c4dca899cd7032c208b05ecce65e690271fbaac8d4723ed145961701d2f701;
    0x4098481030c13ddbf20d1cbbc10bee99ea3c0ffd8de82aec236e4697947aff55]);
  (3803026, words [
    0xdde51d34f15a3137105cc9327df535295f66127ad0179cc208871ab2f04fd730;
    0x8deb488d4c8a7f76ce52ea081aa55476a2751de2ae4c4350c134ed934b11e5e4;
    0x13c32e04dfe2fb2eb4c7e3f6e0b8e9e37b3883cf7e7a34191c3883ec32f2dbf5;
    0x771cc644769b46fc6a66ab5c9a1436f2eac8a81f30c323033e1da54aac1064bf;
    0x9608f473c3d9524bd5b8ebe7d3f81c9b56caf6ae22e6056290835f2a251c409d;
    0x0f59f14752a46682ca6779c4fa8e1d6bc744706b8104630e5964c24a85640287;
    0x6a2d18168b52bbe0112546b89910e6f2abd1999532a95cc9985c89fa37fe0128;
    0x01e286787a176caa0a2122cccf887c7fc0344863cf31b48950fc10f914f2f93e]);
  (3856868, words [
    0xd2545f645a550fadfa0c5817eebfb502fc10a4ebaa599d375799bfd0b166bfd1;
    0xe076b87390666affd7b3d9fd74182cd4022d754d238e2568ccad610e62129cda;
    0xf9a5a1b1932663ff7dbc1a3ba187ae6fcaa3212de03d337a0c3a1df6e3514fa0;
    0xee37f24570e84839a9cfae0b2abc2a0471f332226f8b3b7d97f2a22812e3dcd5;
    0x5268ac2f2a565a3dcb7f9c798a2c80feea770fa691f4c125529fc383c7d35736;
    0x99f10d9e12c6517d93ab4401f7fe6e35dd2fef55d819bf4eebe0446040b3eaca;
    0x060eb6f63e84e33b2055dc248cd5c10a56969c1392c67eeb235843578c8f811d;
    0x39a1455ad4b4e17c7f88b5e5714aab43e3a7f54b298a1d608c14336314ac9fe3]);
  (3894715, words [
    0x069eb876fdc8971f2a12f8386acb848ee9d0efcec02ae8f7010fe8f77f58a672;
    0x4040471ac87db30458716b90a5af027aadcc656d3428631403ba0d0ff57b1914;
    0x6aa02aef38931eb789b6d280eba8ceaafb0803165433d9ef782956d7f7a4d009;
    0xc53db92d224e9bd1ae4199c33a5cbd83ebbdd5c60ea99de90a91ecfa42772032;
    0x6e55ee6959d5b6b3ef04bf118eb1cc1682afea6fbe76c627b4bbf65c99edfa0e;
    0xd5158eb6294ab3a86ca6d58812cb6f1a77acfcc6f820ba9d8e4284c2a8d5704f;
    0x3c931956464d2598e65395740a4485884d188163229c28c2a6a5893f59dce0c8;
    0x79b101fd0611e1c64bd9881014489e25b83ff6c2f939cde7c1c882b4f0e1f086]);
  (4047429, words [
    0x455761d422982ff1a779f09a7646e672972c8c0869a36fe7ed70ed12f6c14a41;
    0xcb0ffc8a96510d08c72053db53dcd855afebac5244fac0bf70bcb4d45a9f9652;
    0x7b2f21c910edeb37544e8644abdd597748658d84de948d3cf08cc86e8d15835a;
    0xf56774e267c12ad2484248378816d94f3fa04763935c55a949dc17c7ee60ed8f;
    0x47692bd3e5daff653c0f0d0b3d3d08dd61003368e02d9a36e67b61f923ef8a90;
    0x92d4d1c66aebe328527b333b1ab6651ae6f436760f51caf7fa4e8ccb3eb36d25;
    0xc2fb12c76675284bbda1fbd382ccae923dbb0b3bb965fc66ad9cbafc41fcb8eb;
    0xedac666af9dbd7ad22a5060d77491ffe4d8abc54ba30b585a21e19a540ed7ad8]);
  (4098677, words [
    0x3b96bfdbfb3687c495afd0b40e97f58e51346588c7e08faa5385ac3c25ae3558;
    0x17f1e2598e8f7aaf8dcb49f4da41aadc41a91ca4cb28a006ef24c61b2e396df3;
    0xa35818d3ab7d79086d5fa6f2f803fee01e3a4d01203e4b04262e7e9e4af9bcc1;
    0x2e2367a68771d453595366490a09dae0e081b29485e57d5731d60d56f419d5a6;
    0x5c4ab769fc5a9b94dc052b4b59f55d66d36ffba1e442150c20ca4be69b2a6756;
    0x2aa484487281b80e9f7e138f08a9a07d876a2eaa15391726997aaf08783b4891;
    0xe94adb3d4dbabcd241311124c7ddf1b14279f5f997e0c10c03c4f743dc385f34;
    0xd4923278e19dd8d000356dde6d3f20a6cc7f501489057f0a5dec707ca5492bd2]);
  (4112830, words [
    0x87e9e65c0144eaed5836c62e43c0195712bf2b524af5de4aaa7cf113161b9a94;
    0xc63e0fb86670f7b3a60752e7fa0f162fcc8870b88a72482062053c3f52b8c6da;
    0xd5b63bec9e2569758defb194dc9695cfba52cc01282cf89353ec47cfc46bf77c;
    0x86ec4089f85305fbb513f5fcaeddc08470402f33e08e8e1339b25c09a09950b0;
    0x36aee3eeaac55e41a36c6a87c80f57ed018a4e50024a58fc93681bca82222983;
    0xa69349b7587fb48460be5b2250d38238f7efefdb11fdfa3b07f398cab72eea73;
    0x9ae14ff937914e40bcbf910bd9c6d937048f6f1f8cd7616ce546d90367187008;
    0x516817a1a0801d463596aa3f9c4597f3884c684e127873200cd1fbe65087747d]);
  (4227086, words [
    0x3d237ca963b363d0408a47b3198b7a029bb11c3225cb028bf025d045e485327d;
    0xf79558872e5f5706fe6bc302af7b4e41993dad4d7ddf146a3ad5a40190c4aa7a;
    0xb2e302f30207bf05c5b9215dfe23e2697d4a4475c0c6c09063c4fa4e49ed17f9;
    0x4fd9f520637925fd39c25755bcca270d2e0528d4a556147f2188c5b157154016;
    0xd34b9ac5b4133cb0fd89df8e4496c6916e1205cfbe1e3779a611291e9b27a542;
    0x043434617bbd365cb0ba4ac1d8b85e81b6a9a300af71512cb9d79a81670feb2b;
    0xb16a281f45c7496e0e95604f49235d25da9f4a04cc30682b6fe009e989c75cb0;
    0xbd1720345f65d042c91ad278c9ae3e3532fce4b362f022787871616a350c0b12]);
  (4248713, words [
    0x52228766e9a2886676b0dc51456bad7777e9edaee4469c1e0f3abf3c8a126886;
    0x1e3698d2779c3c4410cd7f10322976d5a99a4415e3d81f55a7dd9932cb39ca86;
    0x2d1aeedb098aabc1c574bf1fa342f79d5926ff6ea45b4608affac806ab24c385;
    0xa98894b874a149fa4f4ecebcb49cd276e66a3280e24beab459cba45af49f8f34;
    0xa28110b19d4686e6900f8855cf566b81378244fca8a7f06f5e4b6c1691f3eb50;
    0x11cda0bdb0baa7375264aad1243df906668a89d701cfaf96e8d075347e5cea2f;
    0x88258feaaa3d1389e7ee7c68314bf3b0418a9be9111d5b57cb9f609781449d9c;
    0xac7ee01e3094ca00f54dae4d1a663921b0c1f1510495b0c644d7786e1528db67]);
  (4350159, words [
    0x386a44e0919415be77bc8c69c8b9ef1d39f768b04ddf9d88e7abd7417263185e;
    0x6fc22ed903328a1d7dd9591699bbcdda5a6b8099c32313e5a8dee8fe405142f0;
    0x52729d744dfbf3451b5f15c2a32a484064804ad195957128499e497769023089;
    0x25663f999beed95e53f1fe40876ee4b85df345199f5b7e79d332b04ba419f736;
    0xdb52af465e110c22ff4dea23201fc2ef620c1159c247c04c99720cc9952807c8;
    0xec85a127c2c5df2f607fafe90bcb352de76e9faae599ef54aafe8d70389050eb;
    0xf0af4316ff47a118b5d642c794249bb06049b140fde94e8ff8069ad565dfe569;
    0x1235669db4529330aa36da3af063b02a1c62643bd45b9f1bf943fac7ffc0e129]);
  (4374993, words [
    0x767fc697f4b5aa068741e6a6b359c1e658e25556974b51b7aa9402c54dcb6816;
    0x65d5a6bfde0cfd6cf7e2483e10c9f4e97f612de59855dde77c112bd9a02a91a9;
    0xb80fd58b7d34626c6cd3d0ea46ffb3984a4ccad3479478f87b9da32f859d341d;
    0xd60ed2a3734fba2a3b8c1a7ede2ea101fb28e5fcf7fadaa71b9c1e36f44027cd;
    0x30defcd58ffd60468ec2ffbca89508bb61e2562a2938c32a9518adbb6c9f6754;
    0x3d594135598ec9f824e7f6e0863ae2bcc3edd24029007ad5c9da29f8b6c2fcfd;
    0xba67dfde060603ade825f692210a92d551220807cd336ac94ab5e385da775f22;
    0x7648dcefc6dc9ec31869462f90ef92e2fcf4e5b53a3fd17168acb20115c4950b]);
  (4435549, words [
    0x469f7b60f7d4db3aec4ba7a18eb69bc8aed4905e6cf28fc71b21e1a38e60e658;
    0x5b8cdeeecacd82f8f7d96376827fe1ab9301173f942f5877faa2c66c86ce6ba2;
    0x743f9b6ae90290a666817f35952efc801087b1fa3d2c17fe5f91a674f9f4e94c;
    0x4321abbb4e6cb52bad27dd07ea32333111a8fefd6aebf2fd447ff4e7becd4610;
    0x409be838f810d3c150b78979af720d76d8e93dd93cf129479810977118ca4815;
    0x6efbee5ddd8bb1fa17ccb883afef53105a32df97fc6935fd9ea129cf17a2309a;
    0x2c9d2c2b8d7aa8925c91b618c1830ee8454187c9ea594ca9406c2294b7f2be0c;
    0x83c176dd093709d6de57904577e76c952481e94ce7b3168c7c3bc110ac186d30]);
  (4460108, words [
    0x4a6ab9ee8d06c6190781154a668a81260ae4a52a7f520ef71df8e279af6dd528;
    0x652a50cc9912304a5f5ebce24c1f98c1e397fefc1ef03ab98ed2af820da451b0;
    0x4ba1bc97ad2a9405affdfb8042026c7e08179ea0cb23cf03308828c68f301eac;
    0xd4590da6d2fded1ef31e003175f3ac533d2c84538448bc7df6e3147e3d334aec;
    0x9bf653786035fc0892ebc1334ea9d8f5eb26f7cb93c23993ada99e0cf96f9e6b;
    0xa9a64bf0b8ff7d3393028eda4e8c82778937e5bd340a5cbe7bd9986d3180a931;
    0xa908f220df44b85515c27703edcdf23a034117dd84e9aeb68ab8680051ef3ded;
    0x0a703bc8179fc2505399b32ab156197bb57c16d66255560ba628b1873422c535]);
  (4613230, words [
    0xd40a0305d9cbcb17459a75dd93262040b9ef09d3bb96770a40103a915a0bd181;
    0x582be4836e7be2ed6cbcdf18f536d170301f0a80f67ceae64ef10ebeb9b52b0e;
    0xfeb49a9fc9d02e8890f6a19319f465cbb9b2fc746dec51c2d18e8c9eff12162f;
    0xb26154f626ac009dabd1eeb5d4dc2c504556fe34be90e15986fbf8c93b6921af;
    0x7991023b864c72d838110b9fc0dbe3aeb76d68128e04f4aeb878f15f6db37957;
    0xb94ef74a7e54abfea7af93d30b157f99f095a5aeafd317d42e4a2e09065c05b4;
    0xdcbc744f317458de68372ac8728413a63ccffb7c42fcd190bb008c717ee91246;
    0x9cdce8ed3364c2189e13ca35cbb438ddb0b22b67a4c91f96c8f4e728d0b87168]);
  (4627129, words [
    0x954498bdc7fbf1e4ae59a2b43ad51f9bde02b015dc02da4df7b6f1145667fa17;
    0xb8d117731ff1e7051d20ba654cac18e3cd073f2603911622e0e86209b4207b32;
    0x5f744f2986f0d37befc2e1273c715c31ab4abf72640f7e83cb4fdbef3d383822;
    0x534739e2b195090c07920bb86c99ef9341c36102fe0699e195d5047f3482d406;
    0x798b77368fa6859633b224afb38707a2745f61d8062c4f1e989c4255a08d3edd;
    0x57869b9e30d21aaa576d564d2c9339fcae46c99b7c189028bd8c914bed9a76b5;
    0xd135465a41c2d56d187c6b7e1c551bc92c8c573b8d2990580d92d3919025ea40;
    0x7b30bc3e064f0e0dcd99b25b706fa2b3ca167c7d604f90b2229f95e4fa4b7af3]);
  (4722686, words [
    0xfe0f09d6bb668bcf83551b7d9200b51fc8a163ed0d2f1f0503ba48a69c0e8f54;
    0x6b0ba4e074b5959de19a9ef1af045bc9cd6d321726dcf1818c02ce5a7fd6e472;
    0x00c8d21396d787240a9e10de16246fc6ccfc2af111b9784934361340d9342efe;
    0x3f48987fca9d0b295028c73d141a9efc5a5b58f64cba54a27a6b6027395c13fa;
    0x81d987bcf314c2fec0634bcb9420801de2dd7a7711d16a97e2b5fa01deffb001;
    0xb2f90e8f0ec013730fe5bd95fa168f0eb50003268eb930f5f9139da2f9e47a26;
    0xfbcac7d89a0669586e333b8da55e8fb768d75ddc9f4b09ae2e61d40c5b1544b9;
    0x800c892b482bd8307d03c9a48e09d7950252e8bb133dcff68e835a14b3d077bc]);
  (4785373, words [
    0x20a01caeb3f99d80de6fa7faa677a8012da684033d175dd356de2ee387323fbb;
    0xbd9ab7b1b30d7a4e97b101b035a5b5d4f76fd9e89e07f562098e95e8f4f53160;
    0x395b00f821b4f0012d3dd944d9beaee46f9199abfebc039789b78303c1b75947;
    0x34eed1c9494db15a06034f3d2b4ea647680eeb0a4f60b58659a4d35f1f3933fd;
    0x23aecc0ac791483df2291afb963bdc50f5f5863479c4ca20b34d08b5d79785b6;
    0xe85fee7f5b2a3ce2d0fbbd0e53f3289ba8f88efdfef45da4ebcbbd06a5287f9b;
    0x791fc69fce805d661acc01d4b31da31f2513ac1a13f886e7ddd2adffd8d8a9b3;
    0x19124a686ac0916e88da2c804b1b08aec168daa7fe737aa1c93ee0f4b0b84eef]);
  (4787779, words [
    0xb277e8367bc098809a817d7ee41664f7eba6c65662467331b37e0e36cb6c0869;
    0xce05f2e1c33ee5876e8da72f3976082fe3397bfa270ebc5c914ee1d98d1e1c46;
    0x509422feaa8a7be66d183d6b04a720f8ffa51ca1a14c473fda0708034845532b;
    0x1d85e6ea11fbc940cab493098032ba6bcf02e0cf525e1af09306125991b8ff71;
    0x099aace8fafe32f4e7b81eb6b0006d71e023a50b77e37280f2dec1b1fc45eb6f;
    0x0645fe0d375ab1977c749b27a7aea58b151027f03833bbd1f71e55a30d719ae2;
    0x28cafad5213b7e87d4f1da1ca7f4bccd51b29c3bfa9e3bb4b07edf44457f177d;
    0x41914a0b5e27c3ff680e5ac1f2cabc7c9007af07f9245f850f19d931cfb1b8d9]);
  (4791597, words [
    0x10addb2d29f2ab549661946ea65700eaf4619a2581b02a2531d0e4fe685f8d30;
    0x540bb81a40dd7eee1a00f198cad1239d78306ff9e8993c9d41ed1e7830e456c7;
    0x716ab1523c5eb5424e8d524c958fc7f9fdeab52fd3382c3862ee6afeb939a48f;
    0x2a86192721c519494dd11c028a717177b8181598e74dc0e5451b764a798c11a2;
    0x264de1f67db9728cd102e11ff95d82d6b766a0d0cd98471e189ed847b4b46460;
    0xf5caacf9a746f518099b2a517af7f91393ce746f3038abd221f2c697151f2187;
    0x4fdaef3e56e41d0c5a4edf1b63a4441faf9a7502ecf87ff0a8604696556bf0b4;
    0xd637a1895ea05e8badbf2c8839dd2ed4399359b04a1900a618aa75e0b143315f])].
Definition test_l1 : list N := words [
  0x3332f9cd3732ae7f34902060ae645aa6d963f1c6c713cb14f3f2a6c8c65c5bc2;
  0xc21ed6fb15894ac1049a6ec64e5d5d03ad94ce7b1b3a8a6e874848e57d8789f6;
  0xd3691e49d0ac6a8c88803c07f2aeca011553c68c3ce8a27a4b5b63479559e45e;
  0xf60c743a7cdba063cded92c18f5ad195dccf2c07a0d27a1267b55c6f76f06847;
  0x331dd4dfba8bf3d1e796261c0f5ed75cff5798e41139d307eeb2955de6e7bcc5;
  0x7fdbb17e059f84840ac25d6243b0516a1309ca280e4c063128e1f558510eae7c;
  0x33d4f15028c13897ed142e2e440fc0e96b47e41cf08386edbca93e2bf4b4f565;
  0xb57e61399f24f59b754465a324eb7ce7745c9bff7413c109637ba3b7bc9a2322;
  0xd7e1296291a7dd3e4080218d96bab34397a7b0f7e3e50308116e9a0dbae60882;
  0x9d3354d46e39786d0bb869b0546699d623eb76e75897ab7dfcb8d9a6562ec438;
  0xfac2d7e4c1e66c4831532549f8d8d0eb5887458b6dc71c4a13fb3d2b6240ef0a;
  0x24c3f66688f7a1fca7103bbd844fe306d4a5c0ec796b75f551b715b314523985;
  0x1b459e2c95e8ffe1128fbaef8896186ab93e0fb4a4f877b6c63c5401f5612391;
  0x82a1602f25294415f2956c5c0047c8b359e8bfabaeece805f6cdc7d3851a487e;
  0x9facc3ebe0af5ddfdf04323d8756a4b4a933e9eff15f831ef8109d1ec088d9ec;
  0xd56863c3b8b9199acd9efb88ec6123c2d41807f9251352f9fda69cc9b2fff126;
  0x0fbb217a35686956e5bb961174407b9016ab1cf8d5cf848f31e71f016732b699;
  0x011f70dfb4c13e7036dbb91cee4790091a23f7afa0417e30bf86e9ecd1e6e04a;
  0xa54850517fb2fef7cf02b443fed09e9c0752b2f169340b87fd629235a6cf1b5d;
  0xd965955592f426018b924ab1555a7977759028af2b5dd7dde882c64aac5ca0d5;
  0x8a0dc80adddc8174831acc4ef8e5c90a5d2dcbe39c05435db633b29fae8a060c;
  0x1f4b5fb0cc1e227292566723e7634e4f64d7274ddcdf1a037ef2a2ca769a3dd9;
  0x1d4637d07fd76c3efc25f6a975a5aa0a2caaf1aa543afed571b44a6237f7f3bb;
  0x4c801263488f086453f592afd2d9ef9985ffa906d0f51e3dd5ebdbc7e5c83730;
  0xd35faf5065c4cda901f949c50f7f191c5dc4f1b53221e7cfeca90327cd4f2f28;
  0x2a507b30a7a8c875c77963c6628f34dac6153c5c17d9a63611cdc491e9fbab60;
  0xf786dc2be33d994c396fa4c68660ca2c53cad499f021302f50fb7d01144e7b04;
  0xb78ed82c88f26d2cbe5be22517d7f8a509fea882472f1c2bb2efecbe20c699a9;
  0x7f9360cfc6e68765a7783dc37d0eb03f801c5be033ce04bda493d7f397afcc8c;
  0x3bfb8b85b8b79b2e6fb829e3185150d7aa44cf9139ce257ac3e5c87e491b49a5;
  0x614352343c288a91c53da21af6ff12f47f7f653e0b7a93d33f02548c29e8375e;
  0x462615ccd16ef323e409feeaf69ce210962766b117edd26dd39211800e6b273b;
  0xd5c79866cc9435f66e9b13bbbe9c5dae7f7e163ecc6555009f30f78db0b61e31;
  0x5dfd556503288f738e7a18360fe3846b33f2e2c26bc9565c396e1323be060e67;
  0x2e45cdb2dc67ffa0b3d1eebddf720c598b1cb830c3be20843b4efbd36a16aa42;
  0x85fe1c260e353a1c6cd663a05e9852604aed309b20f8925deb7491da204d407b;
  0xe346edd8d33e6b101b333c5eec3efc3549f3a72433358b5b6cb054e26e42e4f7;
  0x9f81bf66e234f25e07eeff64630be9c2ef5da4dc6b7d5e7e114def6ccb375d68;
  0xa2144cab81a2d991b0b9ada52eb71f282cd29fa67072144b6ef2adb0727069f4;
  0x675cd3a57805480215b63ab12170c32fc890985d1ae9863814a6abd256478e43;
  0x920a7b771fb8fb362d1cb09a86d3aa3c25eaa9b6684910720eb6df49ab616e9e;
  0x5455a3b78c3929411740e240f7d70672463aefbdf8556319172a2bd8dd084c6d;
  0x9f997ee5819648f6a692dc518a8ef80dd0f0e1bd22ab146e28fb984469a2540c;
  0x4da59a8087caa54eac49e90637bfc9146004ed9a7957c14f9db6d69c8547de6f;
  0x08c0720db9d648d9a500a01d39402b95c0451f3260b563c747f344622bb0d14a;
  0xbc3b4af71793496c815a1e231cf1d0bbd7da53dc2651a2e09bb9e7c42d7b031b;
  0x9d0157b8d2937f86c915c8443b0ed2dcac90890f77b0b9493cea1fd1c62404a4;
  0x923ff08cb7caa10a6676edd730eb3bfa49c37041c47c9e2b221950b232ab2c27;
  0x887a7d0d72100b12e3e2d1981bb0056d7080327a1ce612247bca87ea245f6f52;
  0xf22c9fefe3f2db522e7b93dd8c76790042d54b3594232c5a47a35053453d4bc8;
  0x6a4d3ebfe069e0b2e56d5ea5a046f461a4f7fef79d283edbdec7cd008dc64088;
  0x1b7a0be9358563b84d212e7db111802df96df36b8ed9237b2b4ebb1732dd0398;
  0x2bea50b60bc82bbf004258f14a3be84787130b56dba3eaca3bef9f234065929c;
  0xa7cfc75081e6648fdbb2a09828ed15c2b74a49587365e2f637915992d69c53f5;
  0x88c273e9381f1db01b23e69e08455a77f0cb00425a2a84428543d3423ab3a50e;
  0xf6711aced5e5a17873ff8da1e1babc423c071aca28534069a11b79f51aa84f26;
  0x5e8a6704b1e379e585e40af6a15e576fc01d661d6b9a7ea27fbfe8e5b4271340;
  0x34c7c85df3aadd13260653e9ee96a569c03ec6be5bfc28825a0dba6760fe2d0d;
  0xef6d9496195fd955dd44fb546dd4751b0fdd336efe84ecd665f1975daac60433;
  0xe6692d54ea4b2609759990a17bddff94ade7d0abf9053e53da4f57e21e6308a8;
  0x556bcda31b51448d09850606fef0114d846c75825935757fb2ab06b0ebbf48a3;
  0xcab0c22b83b06c84049786660c83fd256fceaee1a95f99636973097d8ff0b76a;
  0xe035d976fb5a74a21413a0962745a3ca1374fb579123e91591e6d6c3dbcca245;
  0xf62b8a45ef5c1e1ccadd075a49c9bff9b6c4d8f93bdb359d4f9ce03ef82f1aab;
  0x69341c52bdd0efc4f9f762c8f866c2121b49abe590698cfefcccd9cd097fa3e0;
  0xa47ae09f3112d7695cd02232c9b93c62096081a8c6e09fb61c22c7895459e623;
  0x401684139b8aa8cfa7ddc23ae0b02b6c1d3415bd22979e58ea10f93800e249c5;
  0x07032779faee0b6cafdccfd6fa255f571e0c02df4b9a1f742b19a235b7c54e5d;
  0x211e201a2528b1fc5ef33518ad1c8172e962d46e077abc95b73f300db627451b;
  0x8a4f82c1895f03723fc937b0d2be4cad989dc55ea194ac15ee918d5910237af5;
  0x6ab5ba0b2ab0bf207199e7f235b40e25310fabc019c2ddfc0d1efd3f4f324d0e;
  0x788b943129a0f126deafa4d55d8357dd75e96082a622741f8750f467017b89df;
  0x6a1f6b6d39cea214f051fbc79460a7fadd6db3763800180a6ea0a8716980322e;
  0xc385d97f585140ddb11feb02e6d625d84e2ba0da5c989d9ba920f5a7200345d8;
  0x6bfa3eef9bb5688987560560b04f78a0f441c08c89bc36547fb5449e17a63fea;
  0x7e3f2cec4ada9024d63389ba333479907f7afa532054de307e77d3779ac5fe0c;
  0x821e1f682754fc4eacfc67f4582636bccc2ced08a19a645fb882d1e487d7ea04;
  0x75bbd360303de5fe555de746b6843481230aafcc610163195ad876c3d7aaa9ce;
  0x89a08b79ec7ba327757deb83755c67b7761a2dc2a158f3b16cb5beaa098a51ec;
  0x2949dc92d621a09b583717671134ba4b1b5ab1dd8e6af72db6144182f2b69f79;
  0x143d19a8eaa432f898f99a373e2bd0ce9a7ce0f3069f4d476f5c5b247f28a48f;
  0xe180e1f87ad09cf1626b1197ef2e986266281ff37bfea21f8e61322d022846ea;
  0x021e73f8fef58a6848464708cbc58d42bb2a3f683b930f5b08dccb65d533e454;
  0x346af65cc3803765f77e4609976e80239280f15a7b3d384cd062fec14dbe48e3;
  0x9baf2eece0e1c528842fedd16b82cabcafd2b92ade955a7d5ab95e31d0174466;
  0x15e18600b6390ece8604937571aae834e3586965b0f99ef0be0d1b87f44a69ad;
  0x3be8653454e15d00bf862bcb0ab5357a80a045a65ffb76f62443a78039c5b1c4;
  0x2682364a376370916e15322665f8446aa62b9c6a3b61536678ad043ef7c87092;
  0x373297f3420cd5aa01842591b2ba15ccb500b79075311992433dd4c5801550f5;
  0xe18f91ff178de0726587b7309599df4cb16db8344d6147e22f639ad98962b388;
  0xfc136b30f52d6b1d57706fd0ea5c9e53d413ce1da4f6b9fb323385987b8112e2;
  0x20c04e51ea17a710f850ff24a0af6c435cd891e5ebcb897ffba348bb401e36b7;
  0xe109439358534ec022091f09edec6189f5b8a4674ae9109ef3e0f77edced7ebd;
  0xae9798c99f5e445c7ec78d88100023342a3d7c6d3ebe01bd860ca8c47f7ebc55;
  0x2b957124ddb26f22ffc2255b190a2f35892e2034ebc9fcb27231d06b10382d96;
  0xb78a4b314dc9274c0706bfa4ed59f24f1bfa4a5cd0e79e63dd565f3474f4d1cb;
  0x31dc9194048a831c539efc02167287da11b166cba78b88fef6f96a405ba88923;
  0x731d50da46a63f5fe2364f888abd2dd0ba46bcbb82c39c033c6aadc007988a9c;
  0xa288e3ed9d23338b31903d93bd18e253524bf1463248b6bca3afebee4ecc4c13;
  0x429fcb9e3d8ce3fa77b723d83d23d6da3f45bdb8f025ca2acdbe2ff0bae4a007;
  0x2cac3574134853e9fa157a2dbf8e18c0ad1bcce2ab9bb7887527cd9837989c98;
  0x5ca6f46840bee91039dc1a4004f0e85bd5754ddfdc14b41c22e240dd0ebc4717;
  0xb72e0a7e769eacb41d650df55d1941b790633a7001f89ee1391a3e7c34f6978e;
  0x96a00ef94d1797b05b590096d949d01c615fc17b6c8f31554d03947b86713ad0;
  0xd5199d7ac31bc24fa742b91f3a9c1e2435c0b1a10b374f53fd641b2e4b0fb062;
  0xfc95afb1d9c5d5b755ded5b333e2245f10e721088beae8c44ae2505e9d1f6b9a;
  0x2d0de0d0e920440993eded7a8f01cbb7c9bcbfed828af80bbe82f4dbfce1abc0;
  0x214d3d3288dd528f3903db4e4e5faba816f89052d32c8bb9efb0e7aeee50c5c0;
  0x8058e1ba05f0c8144156e337ab1040ce1ecd89e41a8f19ac2c9dc0b9f372e43b;
  0x94dfd61d706b6d8a0de1a3061dec406160c98a4887cd548099e679606d7599e7;
  0xb31eb4e4d9affe00022dba7085f3f9dcbc9d53bd88c8707173cb120ada6c0ef1;
  0xd8c74cb485df7e899ff6249b7959e0f58a6ac1489fa7edb0fb409738f0af01b2;
  0x8ded407473ed18434a4ab849b994601a65009e79b988e1a3776a6b29e78cd7e1;
  0x9f7f1f79353e0afbfe8bc356632df04668f7d5616a68b4d4047b7f84e24aec04;
  0xdc8c3775e4c07028908f41dcfaf1438f2e9bf012ac0ec48430878adc17859788;
  0x48d5c11a6bb5389bf0f727a7bc2e4ccb4e05a3fcbbb53f16061dd97601ede48f;
  0xb25452313c3b4e3c10b7656d579f9df7e226055aefc05ae11c792f9dce739fb3;
  0x6c4470a6a4b5f72ff1ce8feffc5e30e0043458eadafe91a2299d052b55d0491f;
  0x985b988b285aeb7e67414dedacf40341ce86da23e759f105a5f2ad47e84bddff;
  0xccecd5ff896216de72ea6f058d22d695da70d5f66f792291851fadf7bd6dddd2;
  0x8c2f2594c906d4d2eef5a9f4a9611f712e1977defc07c0e5dd88127fe7b8d417;
  0x69d3c2706316de638190b475c824fc112921ba9e2112d87c6e792b906afd6be0;
  0x16048b3d765fd805ccdb301b014a26333480184d4c78bfc05c02f1fab506544a;
  0xebff1bb27f222a64601d2592a83824c70fa103aa01e8839d305970252ce34767;
  0x59aeef375a12f9a2a035ae4392bb74085704d765224df2ccbe13c52411c52e2f;
  0xa4ff6b96b4034302c8df2f0e1c71c66d1187baf52582994e66d175c8bea817fd;
  0xcaa1228ec7bcc02565e4ce12f56d13b43188b863f967d86c17b7fa325b034b02;
  0xd49e66054067439185c319bf286c7ec036965f10e7224f993bd35d3607848139;
  0x1ccde5cb2da3ac2a845f95362ff39179c1c6f84187ae8056a67d6c0b06f0b17d;
  0x1c8ac5c3f7f004e19d79a421f9551f726f7c6e2c623168238ebd1378e78436cf;
  0x5ad547b52ad78c5f302fd1edf437cc645ef45f3fe8a8ba871ab95aa5072b5585;
  0xb5f0a4796160752185c2bf8c86314e4026f0bbb829706fc89b2fd21c6c56c6fc;
  0xde326de1e585a288503d6c03b3865b8bf2570a78ddbd4e7f4e9b2893db6dad1b;
  0x18e42215ad02591eb9588c2d2ea71b0a32edf307c2c074ec819962538fc289c5;
  0xebd861e781bcb8b0fb2e6263fd349bc783a370d9b2a77e442f0548026814f26d;
  0xd5a4ae9259ae97b0371aef33ac7b483cbf39fbb3c1b4fc9a3b27f4f3afad9bc3;
  0xbe9be01acd621a39f181b0be51690faaf09f5786bf4719fc6bc5eebcfa190fb2;
  0x4880fefa2886e6e9c027fb2b1d4d4da45234e6f2218773e147037cdfbe69aa25;
  0x4ee8a6facf881680f811683a7f6ce0273cd4642ebf85f7b234f9816d87f99743;
  0x67bdfd7012cdb87e0ff9fad7076bed0e83ec9dbf95b4299944df74201205fcfb;
  0x397f335765882c440503f30959dd480c6f3566e7d15b9ef18982fc98992e5a19;
  0x4731163b4f77f3000e6c30d4cf59d2cb64a3317d068543d493110f868c91490a;
  0xc95eaaa6ac2122e2567cbe85952a8b2c15f8808957ecb780fbf17b4a8d43d18b;
  0x77dea5fdf6a0fc8561794119b485dc54e2cf0140f5e0ce43b8be6170f9013a7e;
  0x4370603bdbb3fce215326e39f79828fab1ae2c01c4235a93f1dba90ee3cb397a;
  0x0d1680758235b8daeb9308dd88fa36967317a39e76e156c0ea94df2e59141800;
  0xc352f2e66a6791e440ddf4577b61d53587c131d56afac6ad8a2cd576b07b859a;
  0x0a88261b08972c89781d39864ab9ffc9424da18da68946b87bff5bb928c703cf;
  0xff939867f0bc2bd0c48b3d309eefe09cad2aa881afc8befc4e4f9465e1f9d676;
  0x2f5bee9cfe4998adba0d4293848747ba56c2bd4150a95ec403af20d9ccf2626d;
  0x44cc53d25c7fb78d1985d62bf6189832c2e1358710effa832a2b450b567c0788;
  0xb23b3aea71550e86c22abb0b91e44c5e3c9e3460e63b7145f1e990eff5336e3f;
  0xb390aea3eb4896a7d546055a9f0c9a8567775f01ede0fac28f338dd8f5d03341;
  0x39ed88197a6ecf181c3311b21c14877fbe8f3572daecf7a18ed9d6a03a0d7a11;
  0x4aea5dfaa260bdee28988c97d648a1ffd46884da73502d0ba8631771f9084364;
  0x58d24c72e31a6116dee6693f038282c6280d9b63c36fe47817b017cd0822247d;
  0xd3c98095ecfadd621cfb0befdcb50db63fcae55306fe7d5837cdc52d8efe8106;
  0xd13b019439d9bb12220eb88ebddb1f9559f71e292b6616a5aaac752ed3b66640;
  0xf6113185c6b3fb9dca2acbc8fd0fc19de7fa6615da9d05e7501bcd4741ac8b73;
  0x3b8476a92509a365c516539724a9ef82c87a3efc112703d3f2b879bfcb1a8eea;
  0xba2a3a3171f617750581b8796d76a6286dcbd75c0cf4f1c5177e3712ec2cc49d;
  0xd8f0b641274066f6306b298601a80b45ccc9f38b6adaa4e3684b6fb646399b0f;
  0xba951f3e243a40b73e702d6d312765598c76c0bb038dce5461beab3b704a6aee;
  0xad16aa1ab6b1667c631c7abea683c2e55811a242dc55466532a2f90d151b8be7;
  0x05dc3c8c5cf509799abd9aba0a73ec3169a8beadee09b9b5f87259ae4d9d7e61;
  0xd9e004c53e5f130ff8ece264a62dc2c5bfa3b24d19f75c2617b55af8fc1dae37;
  0x67b6adefa6ace64a1cbfbedd62a9c3c52dc835d2a583ba8ca337d7ba86d7916d;
  0x26a59f8839ccf9d1893ea34df7e36ae70c90b99c78c15e741cd61992158e5804;
  0x0e7223ff7b58abd3d1c2072cca7fcbb9ffefa849040e6e42c28079a214c2cb08;
  0x5df94c642599a0cdac2cce6248e9b9a6039e10a1964f73bf2bf939d50591b736;
  0xad2d07d5b3f9806f127abbab4f67b56f7f8c6d38f0d856237558c529b0f14d1a;
  0x14fae02694d1c8c9cd0855e75a9c1f5f131db5855b830d4ceb582ea5c4240a37;
  0xf48895b01221f5cbf79f7e6cab979ff3bb15b7d0b21a6bc58c488216b85c735e;
  0xc5b505cb5a98333d3b7c4394e19ac9dbc08a65e489ce8e8e051f0b76264a3938;
  0xeced504bed8050dc7f2c27735690ce6bb4ad11f75f8e8a7621ac9dd97a928c51;
  0xc52e2f2389c5f750528c4b5bec7fbd3166f6fba4981d7d875e4ee5d2fbfaa517;
  0xb5186302984befeede4d24073287059ae130f2d3307663bae079eb95226892c5;
  0x7bccf234203458ccb4a734ca7f11814352e8e492b978eae013da38811c088933;
  0x1f959b418837263df95924b28834cc399cacf0466a95d6698d813a8e2526f743;
  0x21ded85c42e9570a26c80a1d17e6365cca18089e8b4c768cc168dcbe5b7bda89;
  0x5ea2e36170427fd844ea8198eaa93b4d5559930664029716f4609feadcc38a39;
  0x44e8e4db61922b1dcba946605fe52243f7aef6f858149fc957e05bf924f785b6;
  0x684e455dee34811d8f84fe2513a324a36a7252e45113d8fa06585ef5ab8a66b2;
  0xae5a162073baa9d84070a462fc727f6f0bc201e4a5577c48e79f461f070bb48a;
  0xa33c3d5987b8678ea86412ce2a4e25aea2d49089113350b9ecdd6d208ae026a0;
  0xf07ccc3a948c21c766e405cbd6840b44c40e70a6b39add170a0236056659bf97;
  0x4d3b3714d3aafd00887b063a7b4f11f45f457ff51943627d0d8cb3333d8905c3;
  0x436eb7f5ccd788dfeb4489bdfda4534b02acce10a299f83197e04b8f7214c378;
  0xc35ce51f1b98ff2f5acc006e3ae99e4f9759663568622414ed368fb74dd1fe95;
  0x24e9e2a542b64671f248ad57e55f553140738bde751c67fc39b8372614e97528;
  0xd03a7563ccae4ec72ef537782ea8880038a67f2caf00b79e67cd8035246a0d57;
  0xb761c1c94c1e2affe499f6acfa5272a8bfba5c629c642ca6ea2e9a64f5b267ea;
  0x389ed83cab69b0925da17dd0ede5d8506a4d014a74f9788149a7e1663e8ec247;
  0x8f9fba2231d6112f83aced279e2230e86a94117d7b7b505696f0d3941ad6af7c;
  0x95bc4c37f3552f7b92f0f6941073b693ff5f22ced6b9c078cabd649d0e59cd1e;
  0xcb15f9d10a0619054bcb687c4e981697a1236673014a2399882fd58c7ad65cf0;
  0x066615cd6723e4fb7b777b4d815548845fc9f903347b3ee5a4b6390fbd84dac2;
  0xce84cab22cc5180f3aebc719510c7221d161cb6a84a5c8f36a5aa586c69deca5;
  0xb7632623352d9553a24649b108e87d5ed33c66b062fed6a22abca25bf432fa19;
  0xf92ee06b740b078cade312f040d6101de45f125a5d888944627e65263bf6afdc;
  0x6c79057b87cb46083e773da1e065e526be669c8499fe971cf96e7717bb2aada4;
  0xf7c2d18bf24b4261189a28f89e9016970fcabb2bb1194b9450575e028540a65c;
  0x0097a6d63feff8bbf93a271f32a09d9eaf2b1f61b7db91e036ca6a6ae6f460f6;
  0x50361b8d66b51f452b3bdb59b79a4cc39d6b060fca6bce5ab2aca362c1976872;
  0xa78bda0ad1e0a7ddbd6bd2ccb49e12d52453f8be2912827902d4683558dc5207;
  0x84a471a35c49dcedfed7bacf2379e0d044b0f45069618c5c87badf2a1cabb4fb;
  0x8cc3f5ae4512ef7706904b54a4cf8fd4ce360901d3aa56766e032c28cd1cc048;
  0x072cb5f6bf81f8bf494854fb944235f0e4a66cdb5ebe2ef857a98847151d8da8;
  0x47c9ec32003ddd752e465ba2bae9c74d8dc2d5410d783256459de09774a9cd6f;
  0x9998ea5d0815a3e2523397446ca946fd15b27f4789abaa669238c49c01e1fa08;
  0x618abbcbb983fb967b4b7a2fcbba0bdb8dcc037cb84b592e6f4e8bc58ef8ace3;
  0x3301bf54a03b12658ba21b6fda3d707be5b4e34cfcb95f5b51cfa28b1c8adc71;
  0x463055162e89737c81423d8a9e641bbec8efccafa4b7f67505d0f33bcc1a1338;
  0x34dcad15e72681576b26fb066e970a6d5416fb997c5fdfa0ea0c17cf2f2a3f19;
  0x2b00be043ad3e87dba99d0dc40ba6f1963e366d6c5ca108624b83abfc7ae424d;
  0x90408e0e1d0a72a88da74e96962094bb7edc95722ecacfef41c0ce7b8e94fdd8;
  0xc3613c639c99b7be93b7adb0e9661ba03a4ade3f233e1c46e212dd2fe5e171e9;
  0x82e209e0dec1a69d96a22ce194a12640b3989551455038ca6e52e71086161bee;
  0x8f7437cd121377932378d7cf5fd776bc3f24227a2f3d66dbaebc3b23d3199ed5;
  0x148f13799e0fc4f0e6578928ccf52c7de55879e57079d7769a3173c864fffe08;
  0x1cd3048040d19e11bbd9c699a37a4ca2270121cd3563903700437da7848d5958;
  0xcd0a3a39b35daeb1e766eefc874e289bbd76da861119649d8aff2db8f6045595;
  0xf4cf594a3f6a66ebe56a38f1303969b59b6984255a4d42fbc561323281042f09;
  0x8c158143578b2cb55ad0f30276898ad30a333fac3decf03b6d19349042933b7b;
  0xdeb154b7604deca25e09a58ce7bd1e8d0682442de1ab59b6152d62bbfaa13def;
  0x12a12befb5af96eaebd5d2bdd9bc3622604cad3f4b0aa75be81e41d1cf9c4b2f;
  0x5656a0e087cdb92e06a095d9f1d3b6481c104cac6ed20b903f05e28d1be2b0ab;
  0x41876c5b6f7433e0904b7d0e4d3b6d5dace5164f0bce708cc3cd8d3cf81160d9;
  0xa6cd5d906c4b2a2a8a20d8874a05b4128f72a1e2c9e30f8d73a4afa69e642a71;
  0x4d27916aa361dbdd39dc931ed0d53c8a9adecb761163351b58e4ca61619c57c4;
  0x241924c61ac6749d054d01a88ba464f466707d1d8c932359dc057ed2c8182754;
  0x7c9bec2804fff4fb7e97a634cfecf3d90213284402e2f942b89927204e9f73f6;
  0xfc3dea1f1d3870d0e0da01200aa456fbce92c178689190578270728107e4ff6d;
  0x727b1aea083d5604e0329b57ea41b0a89288edc47ddd69e78bac9449f80e7f9e;
  0x23ccadc058ca596bc7349970403e619c04990484d917f42013d19b835b56afee;
  0xc6966b3459a813c56d562bff1d53c8abb5c0eb71e07fecdb81eeeb1a253cd2f1;
  0xad6ebf350f29af17634b1506e201e6f553dfa09445a0c57b614cb9699d8cd42f;
  0xd6b83ae601902230bcf0c55ad575d1bbb688fdfbb2dd84d7e4cfda8f019f0756;
  0x8b38e94d2546943a2c7f9860edffdae9af45903a520aa1d91d9d2a1476099054;
  0x260702a82573eb543f21af5fcf1ba1b1e8a68c85505ffe95324d5e90cff508ba;
  0x79defaaa324e9c766142f31bb08b396fe33bb63bcc3606c89e6d5d853a236e25;
  0x0b178487c74dc3a9e6eb13fef11a13248aba8a330d1c15d7653435514a6fea90;
  0xb5739d2d788d8617f56ab6b9e79642e27e9ad105ccb76293d9380d16e27b9971;
  0xbab59fe9cf3940745e1a30ad7c73ef3bd82ad0d8c641c5f63c23e1f89ceca88e;
  0x03f1c6430af53e5d1185040714a303c4ebbea0db31c6dc2e4f45fd2467b6900c;
  0x218cba729f6ee953cfe4dbe471bf0ddcc4d7747ebcc46d481509a4ba8003d7f3;
  0x689f8d0630e527d18c0312ebe5510bbae187b43809e215a646a82cf80d45cc05;
  0x41587377658d483ce06496b6ea7e43f69877776b06362acb67f7098bb0b0ce9d;
  0x46c90bc86fc222e8b2af129b2a5d75dc5a45591411bdc6b43511e4115b4e960c;
  0x2b9ae70a0184cb7d0cd6645a64b5be3964bc72d182555f0c58f3fb72736e45b7;
  0xfbaa73a46565ef7bfb393b0f89f1590033df0123784b1c3436b13e99be9822d4;
  0x6322e34e1afa2f851a06d19be832b905b851974e4f938d4cf86ed0c6a8a0393f;
  0x45c4217d5857b70cb31df38e03399cfd00bcea2413b5c64434d3cec3e6850744;
  0x37526b29cdd4da3ce9304839b1a7e4ae702a26d6b44845dabc0c2afe3ae9832f;
  0xc89090ccc08c745b99a3199e1faa45348bc3d58a65b05ca6501a556129da0d23;
  0x8acd6adfe67d3c9afad0179618b5d7792aa18dfdf4941c19638cd821d2ce7495;
  0x9d0cdaae0ed63c8dd594f55082584a24023c129e8ac168bb6c11c0a450213c5b;
  0xb77d29322f6de14cf36e775ab8b77f726d80484024e03acfc090c0f1e1320ba6;
  0x2e4e0a298ebdbd0e32cfc982c8fd5976e0bb26e07895bb3689e8e2bebbbbe3f9;
  0x5db554a7c74de9d92ef3b123ed157267b04a6ef7267926c7440a58e89cf78cde;
  0x6a2ddd4ddfe61eed473be880564f8fe3bdf94024fc7b50854950b2279ddd806b;
  0x1449deffe2f40ce623c0f07aad1baecf0ff1e85c5f399339ac10784edecb4553;
  0x0664b10e225d42e75dcff72a8ccd41979ee821089d2bb9999b75ebd3fed67447;
  0xd698fffac1e125c634d40a6e40043860c661d06d5c7ef5d94168887da1e42da6;
  0x50a4ad833c7fb5d96341691e91ca334a3ebe2e867860e32962b0be63961ef09b;
  0x6838eda5573afc7ff311802e7f55eb8eeca8b45598a99409a78df181d4635156;
  0x2db6f57459bff16ef2ec2c66d5ae595144ade3a977668d8ee7214e9662311a4e;
  0xef232ff26df4037daa8550de44961c9e98026741f5656e87cc8ae826ceb2dc15;
  0xb23a620d601ea34e06c5073e8b4c46c46ccc522bbb0e1ee62f3ed9c2f5b6c4a8;
  0x6e6e6128f4a4c8773bf5e190012f34599e4d6334ea54463be62b8693d7e3d806;
  0xa2a9f0b2d976c8af137d50477fa77b98261c99587fffbc801b34036a3896c581;
  0x1a0ac646ff16df7ec70704f262f283910c5f4343c4bd11b69f6684fe9ddf8d87;
  0xdcdbb9ba6e7c0aa1e0cc97199ae29de78d3896512e7651b3f87dba6b6efc0292;
  0x5a85be83f2b939549b191ece15805a7099014d9c66f5f8869bdd0a11ecc0071c;
  0x5209b8163b9f2faed0ea83275197216718a07774b039fcd3d57165f92c553170;
  0x59d450f49e3f4f2e394bfbba5b5a1c534054d5bac49e738ddb1b890f631c3650;
  0xbfa2b02b7545d8c8794b1c7480cd014d823f27e39b67956c493416915d54a998;
  0xa58d2301c134b5af64ff8712d5773124351274c661a312b7bb12a1ea64c1e1ca;
  0x70c192982f1de1dd3381dec55d3c0acc87d719805d75fd4c18b185397fc0b080;
  0xdd12afcaea6068152df0facf102dae881e455326f152c0cb3993e92972dd8e89;
  0xbcb55f8bb97faf613750b6968b289bcd391ebb254172c1aed57343c7236ddb75;
  0x4aaddc8096db8ffa6e58d32e8c611441be1cae9ca95edb0315562fd2748fa17e;
  0x801faaa4ae229ac81fd45951fe88ce8566010ca000e13a6491f6cc985ae5ab5f;
  0x7deca87c5350a0b2ef83619bfcb0e74841610e92dd590ca5d9bc5bafcb99adfc;
  0x3f3d07ac00c1f4ddf302cc666bd5504867f0919c0481839c106d3b8480087db8;
  0x4fd83ad5a2fb6193ed31f30a438413969fbac8314cb7270e12ff5255288c3626;
  0xf15603c668be0a1d66e5880b1479b92cbc901957d1dca3ccb5a55d49e347ded2;
  0xa4ead7d64a4f1dc2109eac8685e4f3f62c53cadfd83d9fff50e022389679db26;
  0x65049ba9452585b847c0afa4222ce93af2390cc81742558f0b41e33247210d07;
  0x63967cf7090a4d2690085b095b8e3f0ba2f97d80da96dcc5bd7518ffa0faad14;
  0x6f539fcc0863a6e9fa37c716520b1c4f43701f806f545887df7d957920ee3222;
  0xa18be601ee205ff96bfa43373593b5adb578141cb9e017a532eafe4fa9d6c30e;
  0x38470ccc1e9bf4d37d83a4cd4ff3b13147892f10a73a0f184109ac185053ba12;
  0xdd4ff73e20d6e52c5909bc457eaab23c406a2bf232264841d97bc2e6b93881a0;
  0xda104ca4ec928cb74b6e07d08bf7578ee30897d4d0cbbfd17ba2869399a1017a;
  0x8cafcbd2e0ba167fe7e0d9065fa31a4da707e8cc7fec8223f158182edbc0a1c4;
  0x755d3befc51bd1ef86d12e697f2b994b34b727d36ec8434d5c2da9c01215f637;
  0x8fc1ded1419090c1068974064cc7563a55b0bc48e0a5dc3314f09e31e23f72ec;
  0xfa9de42b022a786541bcdfd0a93230833d49b20d12a2e9ebd42ee7e18b7b3c4c;
  0x76b47ed8725552c3492fe9e8bb23638caad33654d2830d1db2f6be5ffad3d795;
  0x33b8f7ccce945e901cd18f5501b16d9729978ff720633cc801e585839bb57006;
  0x3a820e755fc022756c456cc55384ab54cc1cc4c85aa0d2423a628c52fa0bacb6;
  0x98d240cbb97eea7ba82e485e8177429c7d460378624de14a8789271ab07cc4ee;
  0xac446b78b2757fc8287eb28a2558933df512a81c6ef56862356c71188349c3ce;
  0x9ce4e663eeb13041c7a3e176897ddadae7d6cadc7fbb7157b59b5d2817893ce5;
  0x0b9ad8e375074d8810a092da6cf37ad2cf7215fd5b50508a3db7d62775a029aa;
  0x49e2795ae25947f52c06a76274bf78d278d72a807f8db7b580fa83777ababb47;
  0xff56e8bc373c576fe26c602c6b89e230fb9484d5187f591b6b5227992ea09f13;
  0x0051be14561c16ab1b12720eac44e3a01ee870f79262e37dd6b2e460ceb259ad;
  0x97b25c1adf44f31f66f326d597a59405889e28de1c4921813eb10ff460aa42e7;
  0xce8bf138f825b95eb8f35b46549619c2371064bd0829555ac42eab7d70baa410;
  0xa7c9622b64881cb0195e65ee20e7e3784f8106eb9686a132ab622460a5351882;
  0x8a81ecefe8410769dabc092f3035c703f0a8c4ae28627e1d0cc849b941bef8e2;
  0xf4bc4762415e22f2849e1bb7dc73ade612be96f2651ab078baa49f063066f34e;
  0x96b7d8afbf9868165c1cd89431df7ca31dd38c35bb80e58b2a4331e96889fcf0;
  0x44da8f0eac280739ed8443062adb62ee45e706733323c260a0821f8028879cfa;
  0x2478e36c6fcb503c6f16a8dc42b80149be87acb1a84bca4c818673c5b07a57c0;
  0x444763beef4aa8cf8a292bbf98b3b4555c04fdd35183ba98b7ff59497ec0d4d5;
  0xe09bc671e66dbc0fa60ca74667e2b81aa5934f4079c3fdfea5988726e83c3282;
  0x7340752dbed6922108e3060a136321ecdec371cc147fa10452f5f74dfafbf85a;
  0x813804f237487c07a9b50484a747f97912326050213232ea089d9fb82d363cb1;
  0xfa53c21fc63a2f4a1f1f5c08d35dfea71544f74f61c6651bce7660d72ef986f2;
  0xf2e4e8a7fac1a518e0a735cf787ee606b2e60feb6da55641eeb91aac4da019d5;
  0x9cf47b51a3628b102cba32cc478474d68ca3c7a684818745c6207181ddda9545;
  0x2a8c3fbd93eb011223c607987da09a93c36b554cf2805feb0f33e0415478ced4;
  0x0bb63843134dffdb492b75d8cfbc01f8ac6fd1220de8368dc940bbc18e80f4f0;
  0xeaeb588c9565f8131a59e2be6d7a4204d1f53a848feede51166604a7b542a1d3;
  0xd27e7713de4271d507bdb56db103c08568e8f7ee41455bd4d404d6877a46e89d;
  0x3d9a3e6d08dfd25b72e5ab9ce2b12200bd912f3535b82ae8d3ef61e649e9f59d;
  0xa9f65060dbf6cc3ba205003c71a5f68dbc731b5836fe5d34bf20c575b2efb832;
  0xde3ed8982bcf5738f924bfe84aab08e0ed1a180fe150356438b91e4e8d6642f6;
  0x4a1e2b1ff946cd170a148e7083cea405e90dcedaab8785c9bea33d3489ebc77e;
  0xf9e921617259db4811fdfe8ffc1ef6591449edcd6ec3fed80900e0e8311b8517;
  0xe585ed2fa210558b929c1a8fa1c2f2ceaece361bf040c41b96ed61d1248a165d;
  0x3ec16846f9256dfc10a5aad4d9ea2f10c2e83655b2cfc0e9cd6800a6dc1832df;
  0x4198f305db32d8cd75d83a560be532f44b3f4e05330c71536f02425228ae0317;
  0xba792e18d74c6e764ec6073a2de80fdc35f851a27d3c5433f3625a1f4fc1c40a;
  0xae55e4fb5554e618f0f44d38af6fd08e4a2d345eb8ad7d60e9b06269f404092a;
  0x40e17d635ffb96a1781d0e20cb569a202354191e907c059cb512149ccbcd0b8f;
  0x9c3d75cd04e83fc72650abbb706fb606afc27f5322a8c14a82cdd87322ba8f83;
  0xcf0864f2534b0c454b9bdefc30e4747a460456f90903cc2e4199774f6540a3e9;
  0x295840604979832bfeafcbf649fd8bfff696949f945ea53202a7ed6454cccd1d;
  0xaa9dba84eb0e0741a7f8240a92765efb469e74a0e0c89e62c6547a152663ff62;
  0xc65f8dc11aad010fbb88dadba73ffba5e7b20aa113d818dc804b6be016126a2b;
  0x078da1ed1cbb24d64a51b38d1c51d466e9bea67300eb3b0ee4043b57cb39d13b;
  0x649866b99c64f7d43fec7f659d4c77b9ad71ee3052e16167897331be0541c268;
  0x52e83df453f85dec66c61f33554f7426416b08dffc2c291c00d0ed450aa931af;
  0x029d2e947d14f6b19c4e4029f629994c972e5fc4ac02833857301d8c2976306e;
  0x3586279668011b2b4e5dcf6dc0700b566ce6c02a6d4615a3999f82bf4f5ca092;
  0xf6e28726f18fa3fd9a879380d203bb0a67a1e96d7100425f109434ad9e16e03f;
  0x31837e4e76b72c4671e43e32eccdc70fee2932c99dd33a64d5ab7dd067a3772b;
  0x54f9280be1f444c3f1b44ee0e43e69f3dbbd9f7db3e8b22b758a0d690e5b983e;
  0xb00941e43ae9191345d623e1024906d2a1c4fc67f68e434e4c86d8e66548b662;
  0x1a48a4e6822fcfdb7e5e88efb57de1bcc89504e716481c03e23cd1a0d3417efd;
  0xf8ea4a54ac55bd4f50e64461423a0fd0ef34f657211bcc53e90117da40448b09;
  0x6db4c6905cff7ea3fecc94ed3d46abe5db8c18ab722fd4ebfb24a4c1a11beb99;
  0xd185a0e574dee88acf74016268830ce3bf405d181d7b339387dcaf7458014bfa;
  0x455232b88b45d8bcc0c02c863676854e8cb39846174a80714213662c30d7aa73;
  0x82c81efe3215f6f96b1dedb54dfb35b1de2e5f8e97519c3a14bc1b4223a23dc7;
  0x3d6b2afd1edc0ee34dac57bc32beba069ddbc99ef505b2f1b47f9fae15153086;
  0x96dd74366aca3a00a7e3c0eebdc35c088a1e760041ee4a787cda0cda1611ac86;
  0x4fd690c42f4771f1368ee7a76ed573f9aa7c88464101d5ad0f9f70350293cc9d;
  0x04c626e1f322fd729821e0c5301574f9b2422e20b26f3c6952096185c3459bef;
  0x20f196b372a2b268b6b1424ddf9cc89cd8add8935ce268660ba8fe986e058e25;
  0xd39ecde8f6d1338ab8289759e55576a874334b6e49115250af0d6af406a62c39;
  0x5705157819b7049165cba08f1d279124dc77e35364409cc2fbdd70394bf88258;
  0x94d4d88142a9e51310aa15750d097c9228add3415afb51c142b5f6b0709c7227;
  0x4f8c994b46bab8c1d6281e439f1f4b0fb69d52587d3a08f14b93400d7496c249;
  0xde73164596aff93cfac13a8b951935cf7392c26192aa01d8c41de90f672c4357;
  0xf046c01734ffe11e96ee34c2ee6617210c956a59dd493bb94640871e0ecfc585;
  0x6f5c9cc32d2330f02426d92995f5ac3036c8d423f14e5ea5a8586ac44359a284;
  0xc3acf5dc22877e9a3b98a582dd920482ff70c94c84b6a2a725eee4924085a327;
  0xd9474fd5ced4d019d7552469bdab3b85d39d1ae73ec7ca0a9b0c432432413c31;
  0x129db72059fde85e29e83955e8b4c65cd1678506adbb24339d086c610327e690;
  0x54c2a92b4c729d8617c9ae98d5669e52d3b0a35d4d7ae760aa4686bdf0867b59;
  0xb7ae100a038faf7d47db4cf0073e9978dae83488ea2a27cebaae7d30802bd384;
  0x622e23455f6f446a01201afd985bbc189ff1b6ab219e2373f808fbed1efa5d87;
  0xf717aa9ae4af7fe6bf3ba11a9d6e271aed808c1445260608aa97d73f0d57b8f1;
  0xb2080aec19593b3272a36391422ee3f1494301a7d308f4593c7dc10dbd1da999;
  0xb945c2a257f19eadc8ec7d7fc9b36a2c9a553ac6d0c22ef596f40dd28765d40c;
  0x7666428689636064e3af96a39c844f4d9b2298a491ec9e8ae618d86cc5800af7;
  0x2b683099941c1f77efd79fcb1258b9e0b8fb73da4db734c9bf8b123ea801ee6e;
  0xed1ba6e27b5e3d072eeeb860f9f937cc3ff5c6d7f82501f19bb535047cf38a16;
  0xb1a7f31e0394fca6bdc45e39ca69a898da40c16656a0546f8c6eb8625eba0d0e;
  0xb5b08c22fd535078021c4ddfef2fa597e2c44cbfebbe05e3383b145d2ab031ca;
  0xb8bf3348eab5cc2aaffdabb487895ca7ed926d8f76810c835c87224f10915ec0;
  0xcce585337701b2f0243980706f771128ce8c3c2cc67c3d36d762abc38853edf6;
  0x403d134286fcae257693579af2324195ef79f5689e07235fc377e55464b0182f;
  0x65a0c602a0ebd71a77a8a7d6689b3dd5ca64bc735f86e6372e7cfa5bcbcfc3fd;
  0x3a561d20801c7c2722667d0c64244670c3369b3877e4100b7751449dcb8330a2;
  0x24bfdaedd4dcdf7777883b8ce72a789944ce79273d966d10dbf6d1af62804f9f;
  0x4ae8248aa4c4f5c470ae028b2df3fef98d5d9d5df80beaed6fbc4502df10d7e5;
  0xe9a066b17b6faa7f559db0f77895ccd8f5fb5fa7c5cf205797e3b6db94496f1f;
  0x4f58505bbc3a35f66109589c9f01a4da7b42549b5dd4e6df16fe8e6e37ab47f4;
  0xc59c52da887661d45909ccd6cd925bbd5480fcce374fd793977077ef54969f32;
  0x084a4c6f62728835514fc324721825d8c858b164418d2a240a3d7184285e7ac9;
  0x86105c0b9d422d9dcafc480404c1e18ccc14bf1b300e2f8462129424b412fb6f;
  0xd9343fb0d2f691b1e3b0df717d087fe403cd3360f4262ed1701c804e56508619;
  0xd58441585a1ba28736a69af7c1f77677f9c6309d843246b6b36cb84bfa8391fb;
  0xdb238abfedd3e76b1632541d2e8cfd2a13922788a31133d23891b8a45c4210d8;
  0x488607a4387742ad88565cfbad542ac932f7c912c817249a0dc93aee144ba0a7;
  0x88f1e36695dde853f514c05b858586e4d44e9a49b65b924a8d177951aaec7c3e;
  0x4e934f5a44410f6aa74fd06ef4198e06f4d330a725f2458ef9729caa937ee5e8;
  0x6c0291febcac176f0ad428295b5c9adbdf5b2796972114867d43c7cb63e6ac50;
  0x470368f0e169c1c7165b43505a077ea6143f5b49ddd1e3a78a447fc48eac220a;
  0x8d0d40f81d04c061202aafaae644488c131741631ad5c8f62d5f6679cf83541e;
  0x688ffa400d6a812c788a7b3f0b863ba6f0a811da77c0842d2f2e6b26eab32ce0;
  0x48245e073badada5b23e14080febb24a3206b7d32f756f7a36f15f0a8747adda;
  0xf0d0e68001e4e790ecdbbfd57915801b186de6ed2f00b6f65a6c012b6d42bace;
  0x8fd07e1cdce5b91ba07d12224bc21b88254be36ce06042a8213823794c102436;
  0x2f4b4b44e477b58de2062975193402c21a4165fd0ba0c5685d3e72a6a773a2f6;
  0xc5cfd1e985d210f80072d922b754deeabf14ceafe01f5c5e8f6b1be91b4fe82c;
  0x51df344bccd582fdf777cabebbb6390944de3109443e1643ffa360a025daf746;
  0x225b785a497042ff595c2e5c9dc208681fa1527ece846c2fa65b0392cd918e7e;
  0xd7091a1c4408165d72093f5ab48fd3e431a0a97ef099c631867e31941838cbed;
  0xf23d442c1345fa0abb40fa7ec2a936620b8fd499556ad48bd6139d209e2510a7;
  0x378477b4f874f86346f1f89f484e7b6e77c01edd63cb10698f00f693f1f95cf0;
  0xcfa668e21f31d8b3461280f61909b02fec42334e2f0d6adaa73e1d4393b2f17c;
  0x189bd2acb4d0d17b1fc6bc09092628fecf131250ac65d7cb8fab088e1265c44b;
  0x46c96387b60bed4b00deaca48c0b4a4b840fc277a5264386cab0d93e2d818e5f;
  0x4373bb11387a0b553fd11f7c00be459376a624b90a36b398bbf6eb859bcb9bc4;
  0x508aef40a5fde8c96071afcf03463b03191a9a1b65034a900e560d568986ae6e;
  0x1a71e56fa02ed5d5166fcc4dd938798f87e697583d5c06764e2aba92c8eb1ba9;
  0xdf3b7fd8119dcec1fbcf2d8b54828b5c315f34fac930846ea1e6a9437d48acd5;
  0x548fe21394835550af5d863edd5e1a2d426f904131130aab1a67c438812d7130;
  0x4c7f3c3529e6eee0e88d8095dacd2b86e2ec818513264dcbb5e9efa5d7d12a88;
  0xb51eee7d4ed10fb58c1b161d6bd5b30f58dd7e7ad4ba090bf40d9beccf091794;
  0xbbe71e7e0f2dcb941ac36f5b5998a7ddc33b0cc076806df8a5c4d4186e5a67de;
  0xaebdc06e5319bfcc3c823f91c32c102678b74972e4b02c714e886e5a52feddbb;
  0xd6ce2886480423a02055f9c4feb265e77413dc8c26711af95dfb6bbe668d75be;
  0x95754e0fe1e8bed5f64d44329dd30642c1536c15b80cc96873e90fedf948524e;
  0xe17cf82f9b12e8afb1cb3ee24731cfad91287fcf8b1ae322d2a2e3952ca49e9f;
  0x42c48c2375a616e9d98fb78c4e8bd6e390ca9104c4e799eab0ae66b16edfa3b4;
  0xae3e3de9ecd393b32bd6c8052e30b4d014e0a7ce7f62d52068544d4109bdd16f;
  0xdbbb7e5bdc2c2165cd00065ceea7fad678398d74308601396226e1f4a11e2b6a;
  0xd14ea1d13acd95614087254ba74ce5dfcead8d50714f3eaf562c1adeb51ef666;
  0x2bc995c8c723a9a26bc00a4e6da501e15a17d5abff6ead59a617a4489210cf3d;
  0x2c0770c30c031d2284c9e01b5384dc07eead0a2fd5f516633c5e761822ae4424;
  0x6264472593e696d369231f1d1d3f52a256f1b36e1f6f7ffacf8deac8427e1f44;
  0xa98dd98b435332cb64ca202b7abc0cf0490f7cd12f5ae1fd048ca703fb0b6a78;
  0x24c497fd6a31336f2d043ea71a0b047f4b136f846b39eb4a248699ded5ce17d7;
  0x29b8098a396ee11dc9cc9f4dc721509b784059472d8d3d3e8336623839e18e1f;
  0x7823e1763bd7f4c2b78c03ff70b70ec123284b4c38a76a8024c989002da75be7;
  0xc658765097066ee23849a878fb6d62b33c3f7156138c7a128964fa24083513d8;
  0x5b66d3f8f5d3b6031efa18a9737f6e21437362840f50cb345513330e51bbe667;
  0x99612bce638926aea6f30672291330c3993e8ca16c8164fa1cebcbe7321274cb;
  0x922deb0462714cbdae7101169da2df4424a31115a67ba43262ad3ea2467acbf8;
  0xe699b04189750df1e89e906aac433a08f0f59ae4d5c21df3e83750752371f6a1;
  0xd3e6b9461afa59ad581c2bf51c00fefdb158a3b35ab3e0e1d338a012d18a6736;
  0x4bd3c57dbe18561fb7964493efbb5464e3e3b84a90494a470923fbe187b435d4;
  0xd857403852c02bf2e49f3cb12abbccd9a9ff4d69e1d8b05675a65cf9f1a9cf5b;
  0x1d46fc62c8810b60a532f3c27fa70e8d948e1063ae0d8ce7fd576a560d716bee;
  0x751e69574f50d872b896f2f4b4bfa106d0882283fecce78cd4dbc5ae3cff0aed;
  0x663b1d763808236998634829a7b683bd343924601e453a24ddea543fbc0572cd;
  0x5e4d9babcdf3d7f6bf1b49f7e6d8b890924d7bb95775b0c37f3f3c78048ea1bf;
  0xaee3d7cd37519cdfd897e45011fc984fdda98cb0fa629980be373c5186815c84;
  0x82074e219b5b50637c7e923f7837a7eb6bc2ad9979f3e2e55cbf01bd267806e0;
  0xc5d41b6aa71a8e6ed872acd696dcd6c6bb2772a275eda761603c0612a9fcb7d0;
  0x31ee49cce4a5658fd5447899b390f4f505218037d6e87a599b0d91214b0cf9a1;
  0x4c117d4a0e9f49567456ad973e6a29631c837eaa0c443d5357fefc9f3c0925d2;
  0x2cf3e023f791e32c30d49fd65b79563fc6a8dd52846c450df1f8aedeb3514953;
  0x3ff2fc7db954d9929d4116912c241a98593b8bbe9b8ce2d98b3219fd2bf87858;
  0xf70e153c03a929fc60aa97ba9491ecc8b734ee48a47f476b1d4c68855e8bd920;
  0x63dd0409781fa3f0756e86c98a0f6bfaa33295e293f79edc43cb6ed7f15adaeb;
  0x51e265499167639dc9e17c4ef3002ecc69082b4e6352419c95fc4a099afd86bd;
  0x453aa8dd0e4ddc7a2bf12ed084f44af37f46f961d8f61d52a6d30a43e18af3e8;
  0x75adce4a5157e1c5d52510fd7d33dd51067422ae11eed85582f3a3b216fed82f;
  0x5ed3531103e9275cfea01883ef1e679d39958e4decd65a8fe44ed1e5f89baf44;
  0xa00f7162131495f358cf8a25beb74b8e69b6a9e058a86470f0f710b649bd1ca8;
  0x94944851ea2d3a366f2323a7bf5db7e365c5c172dc31bee74cd0dff16366d7a9;
  0xb6291983b7b7c5e15211766638d07b56818ea234379ad91ec9aa9297d108bbd0;
  0x73f03ee6cc340fdd61da1b6a302984d6726418dda994dc3d6013f2fefacd2c4c;
  0x80ac99b9decba3969f646e8b3ac545d252332ec23901b1660e8827123db13db1;
  0x404f3579a9d3ae631766d64d7c9daed99132031d4b13a42fbfe734380b197e88;
  0x624f8b21eaa78781c88e4f0b5d61fe8e4e91c2a6a8fdf376871a0a42d9663972;
  0x079901aeb350081e87e5841bcd8f2a8e5046f0bf9e257fabdd07479f981057f5;
  0xbdb9c23fb78df445c59036d8ff24df2bd6c28a9f00e72acb4604a7343f1995dd;
  0x1e24159b53be4f1a85e6f382d341545b1910ecf80355db467d8db3745cc8a8ae;
  0x1392f385324a0580eefb904d675a820084eac497ffab6207cfccfaf02446e68f;
  0x0f5d34c9ee36af3eba146502ca9c17d8ebd0b19a2c05b8a1643e90fcf01a2cf2;
  0x6e154ec6ff359d5cb1bf1fb74a1530bad171a4d1fae7769c37c53e2e7580193e;
  0x4650c403b9239c9901d39f415b78c9aaee4be7b7a44f4b6c0d27771746301b95;
  0x43cc95dcbfb1001bad16193bafbdafbf62c97538180926720fd50e0783fa470d;
  0x110519caac154a627da0ce40a1a54ed1b44cc03a97817d8152525c193cd7047a;
  0x2e64dfe1359828274982c263b4039a60fd5cc57a4d27e8beb1606ec4f0f39772;
  0x7e4519099972a55a81aaabc9e6c1f87dae16a5179f3d8f374ad21d4a9601b4cc;
  0xb4ec9768fec9fcfc43a84a2eb568e7acc4e7b847d97c8280926bfc3c19ec3f11;
  0x630a77fab3057c551d27a7521339582563a19927161b7ef7629de7024316c9f4;
  0xad6ebc72d7899c738ebb3eeacc9d0b3aa46fd578a59486678a5bc0640a677d6a;
  0x2ecf482ddbf8ea9634e08b46ca6b8a3cd854a45e6f2d5e84780e82e80bc65dab;
  0x5c3fa6b8509814e33fb3156236e7411ec029084b7e281a3235d53b38586029d8;
  0xf73aa5fe541709ec5e4fb737cbeda1b5e28e6a1558c4a7184b004c3c201d4420;
  0x0a7c8a39650a0f2f7a020c6b0d17825fdad51b16e3cb88642bc6253ae7096e82;
  0xdeb30348789003e28b7762057f620a7bf9e1a5e90c2b7f631b28864b25ece0dc;
  0x95f167c11e2956752dd0c21f8ed3bacb221220d1dd83400a4afc10c12f80ccc8;
  0xc194f6c296bd7b1ac4fe5ea1f52edebf4d0599b2b7115a79dc8a0b4dae775199;
  0x9fe23e81bf248780ef0b94a8ad8d1b46d257de0956d7a21d403885d35a6f1e98;
  0xd07e1c9242eee4eac6fb33dd8f1dcf86f27d2a6c697774d1246aad7ff8c52fd9;
  0x4ab524241f7c186d459242681acbd8881ae80ee77c63e7c3b3fcb0480c2032c4;
  0x7b3ee6f44fbd4374dda96ac93a6cbeaf1b5cd6e3b06a0d5d81f3912e301fdb6f;
  0xb11915d2a078cc61fdd2640545c1193f5de2ef8b169466d78fc22776d2f15a12;
  0x263db13035720cab5d92712d095ef7a37d4bf10ccef1f66a772055a1d994cc48;
  0xa34d1d710aec5b29808db4c9d23771f3e85c02551a2fd361488bbaffa1af2e37;
  0xd5a25bfd73f250aa799da3e3032e7f6f4985b4368dd4147909d6668da07b7ee0;
  0xf23671f4389e8dfea4b4b205abb7d578469a2d4cdfa3dee342d0dec50379672c;
  0x378d46a35998f6f1b6e4cc8784df22db9d52e36c7ca800742dfe7d172fda4aa2;
  0x4e1b1bc64a5e6699a75c5ce0bc39e56664cbd92f2090d8c7edb974b9280a83e3;
  0xf7a4a0a3795eaeb655d1327ed18aa55fbe6eac7e2078ddb6492dfc46a66b3b21;
  0xfd489011f8daa00fe2afcd6242fe4c8be0f56824d0eb28c86895e5cc85663830;
  0x7cfeeab864a79ea7b7e9ac329b99493f841e05b59a286b87d316d20f012863d8;
  0x7bce7a68f44b30f3a9c98d9d88ef01a74e51f5c52150012ad645812e7291b918;
  0x0669dce596371c1f7bfd0e3200e19b4d72a2261b638020830520d6f4a4f7e8cd].
Check (eq_refl true <: done (epoch <- CalcEpoch (cfg_ravencoin []) 170915 ;;
    size <- DatasetSize (fun _ => false) 0 (cfg_ravencoin []) epoch ;;
    kawpow (hex "5b3e8dfa1aafd3924a51f33e2d672d8dae32fa528d8b1d378d6e4db0ec5d665d") 170915 1150768935 size (look test_items) test_l1)
  (fun '(mix, digest) =>
    same mix (hex "efb29147484c434f1cc59629da90fd0343e3b047407ecd36e9ad973bd51bbac5") &&
    same digest (hex "e7e6bb3b2f9acd3864bc86f72f87237eaf475633ef650c726ac80eb0adf116b6")) = true).
