(** Test vectors of ethash/ethash_test.go, replayed through the model with the real Keccak.
    The dataset items that the run reads are listed below; they were computed
    outside Coq by a separate implementation, since building the cache of 16 MB and more on
    lists is out of reach.  An item that is not listed panics, so the check also shows that
    the model reads no others.  Checked with the virtual machine when this file is
    compiled; no proof terms are left behind. *)
From Coq Require Import NArith ZArith List Bool.
From Coq Require String.
From Verif Require Import Base CryptoModel Hashes DagModel EthashModel.
Import ListNotations.
Import String.StringSyntax.
Open Scope string_scope.
Open Scope list_scope.
Open Scope N_scope.

(** Eight words of 32 bits, written as one number. *)
Definition words (rows : list N) : list N :=
  flat_map (fun x => map (fun i => N.shiftr x (32 * (7 - N.of_nat i)) mod 2 ^ 32) (seq 0 8)) rows.
Definition same (a b : list N) : bool := if list_eq_dec N.eq_dec a b then true else false.
Definition done {A} (r : outcome A) (p : A -> bool) : bool := match r with Done x => p x | _ => false end.
(** An index that is not listed panics. *)
Definition look (items : list (N * list N)) (index : N) : outcome (list N) :=
  match find (fun p => fst p =? index) items with Some p => Done (snd p) | None => Panic end.

(** ethash_test.go:32-38 *)
Definition eth_items : list (N * list N) := [
  (161508, words [
    0xbd253ab2f1052abb21b7eba55f822443ac017e220c05e8550cac3e7afc92008a;
    0x1f0163b13f9bf74cb598fe5d1154059cc3ba39306a15d03f0d72d7d85939e80b]);
  (161509, words [
    0x6c19dc4d464c0351bcb5876b23f8e0f45e3bd9097941b357c6bbc4bd0bf954c0;
    0x3574d9c56eb68c3db2dc5aac89d5f36be9be16158fa734fb4b2096471d48ae6a]);
  (1359064, words [
    0x8a853f02c5b8e6148878951777242af6c0452f134c9cfbaac1989abb72df124a;
    0x11a31a5f5bf4fff2004759b72a8f9706bbbcb91c541ae7fc15f7882c7605d3c1]);
  (1359065, words [
    0x51ed25acb67abc0bf4ec2e9bf4a0814240fa6a683f6e035df7b0814294b4d159;
    0x3e38484a04b69833ec2e42802f674565a42e0bc48f94f49a42cbe3b2b8b811eb]);
  (1844362, words [
    0x47f29c9d93a985583139b94439f141e8cbe525d1ff3e73cb651a35728ffd564e;
    0x336382f1c31405e9530e8c83de77502346815bb8b97feefd98d6850acb0d3713]);
  (1844363, words [
    0xbe5ebda188a415504ef10e6a1255d1b84ef099c6674d0597b81a90c3d8c35e00;
    0xbbad75851cb2bbb891026b44639cccaa7b6a0f3e511bb1e03a1c5aa7aa132a5f]);
  (1991760, words [
    0xfc1e84c548affb82af251348955b73cedc7aacaf7c818b232d0d8a6adb090d56;
    0x79f0cf2ed2e55a5ff1d3c2310809c0262ec4fe340189c9fa77cd27c8e85814f5]);
  (1991761, words [
    0xf7f27f54a7198ad78a030eed8d2181de896cd2944ede311e0ef32f39fac6d61c;
    0xac3bfe2d81aaf8835e6a0c39ae87b2049d37984340a511d4438cd10ed63f0421]);
  (3741950, words [
    0xe545838e945b85ce425f7fbc041f7b191fd635286743d59e1b92268018877397;
    0xae62cbe9ee9ccab752e1fe197eb8a61792054745dd24828aba46fdcc3358e5f5]);
  (3741951, words [
    0x2184b5e18fc7bc9a3e9c87dfc57ae65d79e57277f89fe7a2592479fe04f7a4a9;
    0x4a9af848db021de2b4e0f27f2984f38f168281cb6e2605f1dd150b888115cbe0]);
  (4525410, words [
    0x4b9205b9f74cb8b6fcc81cf04d402c5ba6baac163cfb92ef0804ffa495ebff9b;
    0xbcb063007bc15359d007af14ea3fffe9093abe1fa74290974a94d5439daf40b3]);
  (4525411, words [
    0xf2749d69443cb32f7f1117a51bc00c80c5d21e2318ffc5053b219962bd9292d6;
    0x6bf2e78f226d140a8e0064ab68439a6871256cf898d9480e332bf2c1e62089c4]);
  (6630092, words [
    0x9685d2f8f7723b81367faf649eb42143c44b85b296f0761bbaa28782f9098d7e;
    0xaba811f5dbb15d29f4a21d483c27806abe72454ffca9d86bd80c9edfb2bba39c]);
  (6630093, words [
    0xdbeda223ec545e6b82577cebbfdb458647eea63e18c913c6b2acbffca20ef40d;
    0xf1e136f5dbe019088c81ae9c7f4a6e1c26c0b170c7bad7be79626f0883d6acaa]);
  (8380512, words [
    0x33bf70d55fb62ed92e6e815f443adb0332a3aa9836ae0f520195d9c86aca7cb0;
    0x335cfa22bb9ad48e0344e97ea8ce51f384a870139b29a88815c32b9f7eaf754f]);
  (8380513, words [
    0x6607e361cbf103dd87f62231c398fdb6aa152696ac79928de14ede582842fecd;
    0x46c28f9c5777b25a891e18d379acbad2b64076ccfe5cb17280a116cd93a3dbeb]);
  (9321146, words [
    0x31b7963c2cc0bd8cce39729799987501333ea0fde0c405366a58444bb331f472;
    0xef232efb06b60a7bcbf414da4dd3b57335c89781c3ad1f27e66ff5cbe9a101bb]);
  (9321147, words [
    0xa3368ddc26113ae44fe7b47216927e2495c4140cb6b7262aa53139ec89bc11d7;
    0xe1076091638d07f59df394911cb9961b93934cd7383eb0e1b34c8e5d1b6e3c01]);
  (11108108, words [
    0xed4e9c82c4aee4e8c64c48cdf43f5edb524f2717a5a52fb6c47515c617da95db;
    0xa590478fce8952408ce41fd03cc9bcb317e0895e7615baf1005286f57c30f079]);
  (11108109, words [
    0x6b461d782be6ff347cd47e06a7fd2e90c972886d4a3aaed5baee8621977bf684;
    0xb898c13e0b1845db5ce07014b475555a565a6561ee0edbcad8145bc0e6804cd9]);
  (11451320, words [
    0x3b1e5fd44d74522ab0b7a267758ec105eeaddff4a74f5bd7624dcb1093c9eedd;
    0xa2af02ca56bd1957819d502b204e5f83f9217e0c8054ae37f9ae976aca144d8d]);
  (11451321, words [
    0xaf2dbb6dc1864310ecc51ab723a453ab7ff9356f55b2def0c6098881f5c9924c;
    0x047a2318554b5b6bdf4969cc4f8aa34401cef1b527dc7c016a1f1e316132e67e]);
  (12398742, words [
    0x6c8d54eafe24e39bf155835def45ca6d7c8421122aeac97ea44fc567953f77b9;
    0x802c16ffd4d9df6782e51c2266aeb0c50a1a56c4aa406e285dcd03547acbc10b]);
  (12398743, words [
    0x57b5c6a20caf5f79e379e108cbefdc43dd1f0b7839fe783b739f6de6391f4ed8;
    0x24bbd4b17a0c5cca8e1a9970dd870adffdd4cb74ded0ab56ff32cb8188558d47]);
  (13025310, words [
    0xccef09161356e06f755eeb504eb556f6ae35449550c84783e2aa3010a926854b;
    0x846a558b7d97d0f7232fb42b2fcbe9155dc9bdf09820e423aa4c752308345c80]);
  (13025311, words [
    0x415d1902e20c4d08a2cd444c0cb77c9049102a03652f338fafb561e131bc5b15;
    0xba9495f9b599525438d97d30d46077b7203325c2fc24787d0387d53425744dfb]);
  (14234950, words [
    0x8c42615d7a76dbe5feb398db43322845503d4281c63c02bf3f74ceb0c096673d;
    0xfba4b494c1cc2a11b31e57142c03c8e90e7d4187387fba649e7369e32c656169]);
  (14234951, words [
    0x7f3acde07ba0b389edfbec11904c8bd88c15ee9b8eafe1d8aaf041bf8caca1a5;
    0xf8e33e4662fe9b7293bae94840af4be5c60a898e65b84769f7cd88683f458196]);
  (14404994, words [
    0x0009b08806c94d5da7093ce84bdf2135f47e2f7acdc76a0cd15316f56c04c20f;
    0x463b146d3ca43175f7cfa8591a18ae4ed1c9e547e05946b044e53caf72a8688e]);
  (14404995, words [
    0x19ad2030d49513d41859bd21bb3ad41f14ec94a3c8ac353e9bc84f2a48552dcd;
    0x6a3bd0e00b9ae744045ff2b1989024d869747f46331a5492ef227656cd185ed8]);
  (14952346, words [
    0x075f2ad212bb266f64c4dfa28bc656b76e8c76bfc080279a4e7aa192b3c5b6b4;
    0x982512f0bbc1b5eae4d9c7ed99797ffd814bb138f976543ae61031c0c150f593]);
  (14952347, words [
    0x1f2107b393a4d8d50ab22f2a3a509c71f35ce14f4267f6a5b542fcacc325ceec;
    0x52438ceaff4ecaea91aa94fd1e62343f1cd32cc0d01b327a0815afa3741d12bb]);
  (15572754, words [
    0x336d4ce047e78a2a17b90331aa706835df5311558790b2e92688e8f037f2f59f;
    0x059754c73c61e8eab670fcf79c736584bf56a694366adf834b62ce6565fbdfb3]);
  (15572755, words [
    0x87d8edd187061f11080555bd9f11cea69693f7614be5d9b30456cb788847c36d;
    0xed02b15003647b64de6eb595d937adb9680dfeffa5c388017abcd332d15a741c]);
  (16020848, words [
    0xc6d306ad3bc307f8f2f8e82d07800ff00ef15d0e185ba6df3b8b8dad9e0a7944;
    0x87654528e42012886243a2b392a7a3552e883cba01ec01be4a2db8f1c3f8e253]);
  (16020849, words [
    0xa3feca1bef4acdf817e8c378b33971fe5c6cd3f3c53920853665f88c41797d80;
    0xdc3dfdcb5a13b136547b625c0dde50bedfdec47120de88a3b9ad6e221f0d8166]);
  (18069150, words [
    0x438f5233cb6b7f841072d1025622f6ed48893d4496d23c58731b5e9e7552158a;
    0x8973db5c2bb807831e88b51677cd0907a43e6e262db98fac557f1cfadfae1670]);
  (18069151, words [
    0x2ee923aecbb6a6f34dc0225169fc7c0f90eb3e384564bdbb99562c290850ee6c;
    0xde8b665cde9c739ce9f2b89cc16866fcfcc70d6770ca207419ee6b72847ce326]);
  (18430760, words [
    0x42dd673990fcbf74c278ce999db80ce85d6b112d2336805a75d8007bb447f892;
    0x0f5b556fadc8705c9fbade12ece4cb3868563281813597412814fc2a89be839f]);
  (18430761, words [
    0x069b149c7a57d59e0a4a6b662b7d1870b759c54248bafb3ddf991ab2ebdf6a72;
    0xe3db3b91f56211155464b608c71b175b9bf8ddfa3bca5073ca85385382efe1c7]);
  (21701126, words [
    0x64911b60f580a02fb507107def2b41a7e9d4b40f62fe2ac14acf035abe33e0be;
    0x7782377903760d46264a41b66298b9bef0681ef816ca0b2fe4cd9c1af2854070]);
  (21701127, words [
    0x91f4fd64005d19a73601ca86bbed6c00389b4f758ecad33d68a9b874bcb354e0;
    0x3df7147ac734a8fc240fb0fe8545617d815dc1784940b0f905c8f6576bdfdeb8]);
  (22118864, words [
    0xc186694839987083abd05691461c458d4d310823634aded749b896540d18d9b3;
    0x1f1f6daa24ab14cc4a65821cc685f996012b95b0a5ce3b01f640f610a7db1724]);
  (22118865, words [
    0xd71121efe4fcbf688c4ee03a41dee3ecb113eb28db6e07631612e75cbd0012d2;
    0xada9daae6cb2fe52c3e154d3ebac1de8e6c2d2ad149f7a5ec1f74c7cf882c6cb]);
  (22288764, words [
    0xfac753fe8209b59069dbfc4ac4f526987f71a2e8c9d75c237dea75ddad514fc5;
    0x9751856998e22c183a022e608e502d478c7bbbf2fd8cc594c9317bc22b443878]);
  (22288765, words [
    0x5955c0bd91a02de2ded626734c89003a1778f0a14af243965224feb59bad2e07;
    0xa49d0282b58e27c39513dc0d67ef3bded328ddf9637f315e773c84cf4b31e898]);
  (23486936, words [
    0x462b201a663854a8d4d93eabe9f0dcaeb626e986f995d5d004e4d60b10c55e0d;
    0xbbd5bf1a90fbfeb80771fa7c2ce53b721ade5e19d6f888eeda295c74e80968d2]);
  (23486937, words [
    0x35ff7201c09330e0bf7e2793d4816fc4fd34377464a872d60ca5e6223d21049a;
    0x07b64d142bda592785ab43278cbf34498c2e4ba353cdcbe50c07a173be46cb97]);
  (25158522, words [
    0x11e3c21e5b58e4e8690e379ca76fef90622142e247ce52bdc6ee6d1f805e2f02;
    0x66c8f81df278f348da3563fdd6427220da2a913cbfccb1599d8f55b077df0174]);
  (25158523, words [
    0x3632f4df3a5227d0645d1ee2b8173b6ef18de6c8560d49d10aea87b292514e52;
    0x6ee689fcfce33b8c7903e0650a72bdc4ac58614fb2653c9cbfe50e9bcb5172ec]);
  (26027598, words [
    0x83e833f30050b918bd38da7c51f05881303bc3f88c847d355f5345eaac799ff7;
    0xff3b97c21b4d083f059cb46c1b89875e0f599a168a63e5f41b3c9fbb10e5e7c2]);
  (26027599, words [
    0x8421c0e540e3f97302339543bef45645b622422b0715acf9a8e0fbfe01a39f47;
    0xeed0431e0891f84db5b78153163a4c1dd99b2e523db97e2be866b9ba510f99c6]);
  (26740972, words [
    0x8fa9e179effb568a1e582c62cbb7dccd6a8022cccb85fecda63abc7364855d9f;
    0x51be118dfae721e12ce0c420874007bbb714251329fbf6f62a2d830dc45c1fcb]);
  (26740973, words [
    0xa5242f5f8b4aa447398289df2c31fab7adc7464c6cb30194c8f502338b882e96;
    0x1dbb0d217746c6fe2deb0f6949a4c7490e221bf22b77e8fa468afe2a626c4d8c]);
  (27803416, words [
    0x2689f408d3beddd951c98d7ce953e397e138c8821c0d918184cbc13e1bd3ac93;
    0x80e294433fff07b350ffc5f6fd007444960acba49cb2b75076192b5ac8692910]);
  (27803417, words [
    0x1fd1a335601c9f3a38ac47b4fe0771ea34b6c5f3ebb57b7e592458d0d6fa6463;
    0x32fdb3c9bccfe1c6d32287620c55adf80fa0b76d19fcea9b920edc9c60c3a951]);
  (29179340, words [
    0x421eb0a6c47c291c0181b637db12088cea0e909a624cf522866905321efe7d16;
    0x411504c9dbf9de3a1d50ec91093ad4f288dd1af1e23b7e9fae6d713692c46236]);
  (29179341, words [
    0x81b695fcfd71cb7dacf40d2f07db12b981618811a61b1b3e4b7ac5d7b556dbc0;
    0x04ea606a2d54b14a14bb8bbad11b0ac07e0088f57ffd016c41f6e8e61609fbc9]);
  (31326932, words [
    0x1a1d33015ac88339b1fa875a946ee6a4b90f419c5992d2de328344ac13507e52;
    0xea125ab71b3f1082743345fde3979bbc570391026ffd4246b6051d05964fe33c]);
  (31326933, words [
    0xde856da10752a870d3ba8e4b1c2acc551c184f5168651151b1662c665ddf5b92;
    0x4eb810e7d43d6637618543e628c47282e6b868e06bfc6a997ee9988a1c1f450e]);
  (32903776, words [
    0xeba1e39649990d748e4f94deb1e84af1cf8fd6d073f0d4f9f72830c21191b85c;
    0x69850fbc6d19de458eea1a023cfb7ca97efa65c69fedccb88b34a2e33e54ec1d]);
  (32903777, words [
    0xddab8f2759f60e675e594e86bccde98b231992bb15f16290813d42e14ac7672d;
    0x06a8189a8fded99db7b4620b4a0ae2d54196ae5a1016f394e5c3c687cd73c2e6]);
  (34216356, words [
    0x9de40fe9437c7325e9e3d330567cee77a8edaad2699a3eacb0a6329eb96229f2;
    0xd3debde73bf26361feba52c6314edddf841b724802f97b674c4286f171b18418]);
  (34216357, words [
    0xd69db675911dbc82ba0676579bae722ee1ba18a317d0d8a871e860b2ebb7c087;
    0x7f3c24c15138ecc319dd1fa8f046a4109ac1f3567a42ba1f220a013f0b76c85c]);
  (34919964, words [
    0x1658ecdd73923e938516216517cbaba0c3cae2f9ca70fda27b5b2fb92f6f011e;
    0x2941a4fdafeda9a01c40b66f23085459906bbaee04c86774616d6d9ede361ab3]);
  (34919965, words [
    0xf752b76f4f411bf8bb0722844311b9ec998a8b56f49f9fa32bedab423aa6e89e;
    0x19b58266be8389d84a7e70eca2b22efc62b4b4400360da7d1a0912e1a7b63fc5]);
  (34961854, words [
    0xb38a572409a6a8cb7ef09226b37a255dfa9fe002ba29c26087b340ae4135cccb;
    0x0fcac53622ef151f7184d08fdd99cbe48c2f5bf8de516f85dc2e3327cf7f39f7]);
  (34961855, words [
    0xf2c61e465a80382632f4c09c3cd28152e2685b74856b56c5768f6826e1dcac56;
    0x1f16a829feda859047b242c2b646d2e6013e1401dfea8d1ace024a599b4850db]);
  (36326478, words [
    0x4a4b1fe37873aef062f0b8121a93f8c36ac9929ba8265829561de2b634fd1aee;
    0x95b476a9b1ef72c69eddd591f2acc73964d8789854854f4eaaca14f6c2c3c46f]);
  (36326479, words [
    0x08754b6a97095844f80bc9b1b5b42f57e08d9d7d9e32cfbc80fa0983b091488a;
    0x7e1ba54c2246497692c8e0cf26b7153bd787bfe36ac365acb5886580d4121c79]);
  (36526950, words [
    0xf8ee580a0607be39597322f49866e5e13295540cfc864d9c212a949814b8eca4;
    0x258336ded6e7a854316cea4ab951a4598a76505a2faf613004d87e4d93b141d6]);
  (36526951, words [
    0x923039da78e96aea699f7ac791eafe51682aef73b36fc27d0ec2c9a44435f612;
    0x5fd7894d70687e6850086c5602726f9d0f2af5bc6ed5f7e02c291d1c6ab54919]);
  (41439484, words [
    0x69d9a56be50f25dbd283de3226633bca666c8748e03bff02ad991ab9d3e1c721;
    0xf0c59b6c4c5dead359fdab3188cbe495cb9a80431daf85f554f1491d0ae5cb73]);
  (41439485, words [
    0x14ba7f29f23109021af4a7c276a28d42754d124b201eb9071d1b42399561b945;
    0x6b0b669654dfbe10e638a58bde8f2bf8931ca2f973e830bef1243e5604e6bd96]);
  (41783956, words [
    0x9223ec8efc544f9dd102acbb1f43da2d79b0a354cd1179f6af039cb79a4e14c7;
    0xa1f0641a30081bad54d0a4417704623296f2f653327098c6dbe26c9d23b94027]);
  (41783957, words [
    0x93df4d9d1a1fc3c423d634b398ed3894bed522084345318b4a703664674f261a;
    0x16e631acbe1059233ef4dc6ef1ae518859474fabf935e1fb9ca5d6bdb0280cae]);
  (42697526, words [
    0x54effe92b65412112deee19df171aba866c605c7215fff45d6792da77edb8ff5;
    0xd58f0ce4c1969f1192b7b57b8aebe10d233e4f46e1a4c025d2b6680250ac05a9]);
  (42697527, words [
    0x8969aeab856e911a6ddc23fb9e8bda6f3cd65180232354f309fe6005fc01164a;
    0x49374a629aa64916147a091ca1775e19157be6f57643d510e61e6e293adfdb8f]);
  (43666146, words [
    0xa548f103ab55b766ac619ff6c350db66151c5c434e745a5236625299def68534;
    0xf8860abbe667999430a1da608e422cec3f3c200a88a88b0ed98d8683d8e77a71]);
  (43666147, words [
    0xe3164cb784bad3877f30e36accfe9a003b6a39d56d0add35bdaf3d017b15472d;
    0x59f686824c6f35b06e35ca21b62c74d6826fe9420aa341aa1a4edce33c7264f6]);
  (45443100, words [
    0xc853c592c80ea05e75f6a76b51d5ce608b0897a660476513988ff9cdb430d61b;
    0xa4c2c5328a588134801f3d6103e4ed0d07c6d022fcd3d35815a369bda20d43ad]);
  (45443101, words [
    0xc31fc91e80267b108bb33f971e32c571ef11b682ed493dbe80db12c6c0012b5d;
    0x1d643af6e9a1da8589a0f24bc591a3f0b260e05cc73a051a43d2b36f6d0782bd]);
  (45749588, words [
    0x3bfaa2da77ae69fa9637b7308b40e86da41ca77670d02315af129f9634eb928d;
    0x300a88a1c8471e012f5397f0fa10de839cf549eb3b88d86ed70b368a35793bda]);
  (45749589, words [
    0xb66a74da154df34137bda14f361ecd316a6bfc9c3af6f2ff0bdd50a38b24e1af;
    0x4488b484fd2da7a4a6a3e25bdacdcc62547166fedcbb8401d80e7c820e444944]);
  (49184084, words [
    0xc756462a4635818b12183e00dbe561716802a0b40b40f9237c3294521819d8f9;
    0x25410cdac3953cd92f873c77f310f6967d4eb755242bd24c821e24330221b24a]);
  (49184085, words [
    0xa601ca31f5aa8bc2e49bb2a7708893b010aa2c3f109c739d6c419093f7b73c77;
    0xf907223e446d6c5b09b6a84853e6e4797b4c6ef42e2291b748b674904f056146]);
  (49798204, words [
    0x44581d97abb3c357ce1371f05e77af51b245d16812d812a987af4644d61fc3a7;
    0x7051656ee51152d3e66c54382b9d8d1c78c903ac5733df69b36528cf0a7b6429]);
  (49798205, words [
    0xaeeebc1038729a550539b0264f125166ee998a9fcfccdb971007e6993770e746;
    0x158d7327a0362d77372f11b1b876ba706bd14032533e3abb3c2b74e484849984]);
  (54108732, words [
    0x8360c8ec135a582206043946a3e0ffc74dfcec593a3b4616924255218bc271d4;
    0x5cfa4c1389c74d47ef75c66217101837a6bf0febb74b837d525c24eedc8f6e5d]);
  (54108733, words [
    0xd4d16b318052e51c6b7fe5df51cfd70d758954d32f16b2a7351f486bf6a5a035;
    0xb1042f58b9ddebdc894019bff78545b83134029959c543ddfd8f5e3aa6c36ae8]);
  (55115628, words [
    0xf5e4c7175752e13db893e932f816cba2ce4b3c13f9a42d6dea279aae7245b5f1;
    0xc0f4da2e74936aa4105a05126095f08f4e9b51a42639a1f3b78417c26bdf8da0]);
  (55115629, words [
    0x4d6a0b3928e007880ab69161485d8e9f6d39d49eee3aeb7fffff45691738bc0b;
    0x8f053ac564e8c0c1a333a8859e41e8e6fce7b3a4da54d0e6d49168dfc278216c]);
  (55795812, words [
    0x9e8df181930dcc8dd293e25e0914ace62939aaf3db5e1c32443dff33d9c208d7;
    0x31b7884ef888c90991afa87c8118c858076d86c0c3ff6ca365abe50c34cf4b0e]);
  (55795813, words [
    0xd602acbf056c5e2aaa7f62586b797d60886f25db9fb0fbd15c30c927f9d4e44e;
    0x856b9bbe8c407d68071fbebf3406df139c2f68a63e997ffff4cc74332fc0fba2]);
  (57172288, words [
    0x36af1f84f4a7928c634964edd5b090ca4698ffec3b4e0077ba05f2cffb68892c;
    0xe210c4862b0632e9037a9d419c46be1eb146ec30c143314da4825c4054571c48]);
  (57172289, words [
    0x3c6c23dc522a78fdfc2a630510ba4082c32cbf128cd79729f958fa4a26e14409;
    0xc7df62553a03285f317fbb31f267a956ce1f29827163835e6e56d54e1172c716]);
  (57475228, words [
    0x39640a13e6f56d8912eebd2fec38f1c16fcb34e8baea05440f2713f160940fa5;
    0x0a687765cdadeb9ab1d342efd205947610cd3ecd929b255af29c9daf1e6304fa]);
  (57475229, words [
    0xfdef68ed703f0107b1ceba6a102c925d401236a9bfeba3e409a57f4b1515f0f4;
    0xdc261983004afbc08d2a4e2b88a9e7a19accc0de4566c2a1059e0bd8c9c88a65]);
  (57987974, words [
    0x4672899631d82bba87e533ece5459d9260b2260b836ba23b54aad2cf1c405fc7;
    0x0c0cce41b762961cfae7ad8712e2768b5654cfa2623fb0b7bac860b98f49981c]);
  (57987975, words [
    0x3b005b43597f97e2c5424c7d85a54b53a0977d0725bc54379c43138565b9bcdb;
    0xe532614a8a34ad319469a0a14733241d496e0d9bebba81a412be3ef408640383]);
  (59280882, words [
    0x555cc6ada9e2382bfdd30ed5d67f3538f5f2406f27921378b97ee026cd661457;
    0xa894deb8cb1dbdf669f6b057e52ebbc56be29502a668a54469c428450d8747bb]);
  (59280883, words [
    0x8d756698e1d44aaa70c56dbae7e977c639ccaf81fd2945b91ecf9e55810ac7e6;
    0x61908c2b8c1fdcfe0356d8ed1cc4d76b760dc728693902458be7046372b76041]);
  (59647766, words [
    0x74de3cf219b0ff4952887b99ace0d9cae8fb3aa8a7586b159664754a2ed15abc;
    0xd5bb852d6a1eab10f8b69f8c8cc4b65e5ca26823dfcd78ebb78ea88f53ace79f]);
  (59647767, words [
    0x80bf0ea28f80a39fe1270147a6134841ea119af286156c86be62806bda926de5;
    0x5933322af5bd78f019906dced55af8dab56a9274e6db4e834e8323a36259e24e]);
  (61035140, words [
    0x3547c3fe9f70fc952342e6962288484e604125ee77f267e320c0e665e1531932;
    0x845848c36f75f20eaf9b50bfb2f96bd6c8ab94668e4362968d7dc33a04992175]);
  (61035141, words [
    0xd39f04959c811e5eb6c61dbccd5780e09355783e08cb3566a0a3a21d5b0ded0a;
    0x8c35eefe5d0739b8345ab4af0ab153951b743165baaf6f6bee728ea1238cbb31]);
  (64031102, words [
    0x09d531ded197570abf5926c116a5ca2909871bf4075ae8994a3f38684a40157d;
    0xf446d97357d5ae97fadce1a763baa284fdf0e33c464d9bf6538703a1c9accb05]);
  (64031103, words [
    0xa6e2b3e9f7d72d88a1453e37f0de0c46054e174bad8b1735c9fac88cc116f217;
    0xe2e582fe22ecf691b33bf25b4efedc11aa04ffbe45fa6eaf5533ac99b615982c]);
  (64716316, words [
    0x623e20a8aedea98f477100afd6a486c25e92114f2ce70bf3d287f259e65849d7;
    0xfbb9d50611574547757e46d93ee35d00b6f2d514cb972d33ef61fe20ebdb9020]);
  (64716317, words [
    0x04610d1969f693e114f337f441a9b2056bdeb96f5b25e95acee250161cdcbe93;
    0xd921cb10409117a5349512c16982a06fd85b29fafe838bfaeabbb5cf43ce5250]);
  (64842290, words [
    0x735e82bde15e269a209fe008bf3f9af795c41e3dda53093caf309b3f85ce68ae;
    0xffeb09fdc3a8cc62c7fd13f79b4f907ca0263ed3cb6fb53bf763d5062d84a20a]);
  (64842291, words [
    0xcc6ab8cacc3b7d5d7fd930fe113206e496f9d97d7689c3832dc3c6a1ed3d1043;
    0xf31d2e26929f84699e4e626a46e49bdddfe3b6e050106a0f6c31d5c96c209168]);
  (65298416, words [
    0x2d4dda1e083a3b7013e70331057d247e2145b7ae6b0dfbc06db63cc12952421d;
    0x2f803b3c8d917075a0d73cdfadc467b61fbc8b45b5a5df47f8e4e00dc581bd82]);
  (65298417, words [
    0xa51b14e9aeab1ec25b0b902eec353d14ad350b9ff4414b869de10c3e1da2ba28;
    0x71b6513ac345f8260d1d3d8b4dcd3f1e201000d9e06da2ffa519eeaa8587c72e]);
  (67086218, words [
    0x023ef30f22df3261d7117d3f9fe2d3ad6f9ae225df93fae0ed33345e261383a6;
    0x45ff3b87f7fc913a9d6bee8096d78618e311eb3f3f4b356f9d7bc053e784ef40]);
  (67086219, words [
    0xb20f61127ffac23679d236eebcdc123cd94ab10cbb4939be47d33d9e0f6a23b2;
    0xe4d04c3f3d7cd0f738ddce1df464704c263384c63cb743613168010328546e29]);
  (67235594, words [
    0x7461a42525b8e8df396594fda5e5edc0d09263b6c6c1ed5fa68100e455e4e243;
    0x9ead20f87345c4042293ac60fac6c48e8f0ab985682f36f5432bd26b6e5d899d]);
  (67235595, words [
    0xc2a920cb8cd1d986e7942db9f4fbb8cf743022d4d0bc5ecf1fef5094d74359c1;
    0x4016d4841045c355f97d1d31fa2deaff1a0343ecc2e8e3e009696edf2f404a1b]);
  (69497898, words [
    0xc41b9c88a6653e403fe3951ee4614e444cdbdf512f613bfed04401ab00e1deb8;
    0x8c075b7d22eb4cc788223faedb5e6906464b446375789c8e3fced959ed8bc0db]);
  (69497899, words [
    0x441d1050cbb9735f98069a42e825bdcb135157b3a6e8e418cab7d0616bcc7dae;
    0x19851bebbd24d3edc23b332d29999f42f700a2c1300bac2a455f9bc27247364b]);
  (70283000, words [
    0x231f0eb879e8a4289086c11c43481c77aa935838b5f9dbbc433e7f45da28dc43;
    0x4dec9e952ba314db3655e08065ea39a90e52f4cde91ff9fed65dad524a2596ae]);
  (70283001, words [
    0x675dc90c136c9ea1e7a8ba32298a3565912ddd5b20c6b194093f4191b998b8e5;
    0x189794d6ef933b0e96782ae5c027b6ebd46250c9c6e8a8ef5f175b6e7a71863f]);
  (70465276, words [
    0x5847cddac31d175cbeec0016355d412d2448867dff142f2d0042e30ce7f7a9a0;
    0xfa9c24882f53d21bbf1192ddf8e8028339d371b5eac6b90e02e3ca97f55e3f1d]);
  (70465277, words [
    0xa7d28988c005a65b8644551dea8d8da80de59169b4afe680a75260386de9c154;
    0xf375fcbcae69e94e3b1c58c9408d3e760f206fb8b59b4bc719bf1edaddbc391f]);
  (72205428, words [
    0x78afa533df666c99738fd0c7abd8aa796d9074f50f58b60ae6b708eef970b261;
    0xaaf7ec8be970eb1069c0ad967227e71d94d0505af773249d7ef63e1921d51080]);
  (72205429, words [
    0xec86443b404a6a88da26f11e80cd4ca249a8a30587f8d6f661cce601c74af348;
    0xb220e3ff7b41173d5ddea1ea5ef8c2a2cf4db752335e2b91869badfaf320fe71]);
  (73080964, words [
    0x2380b209407c98e19076ab7f26e08a679350296932cfa53ec92858d55368cfde;
    0x611b999fbff0b58b6929c48b6457caf4f978596cb1104037e4f63357a0b6b942]);
  (73080965, words [
    0x2c5c9059a0e33228f19d57117e843760f776501b3c7926510cb055c0de1daaea;
    0x65db7c3e72ebd342e2bcebc1c7b76184e60c6898243345e951ad191a75c3533f])].
Check (eq_refl true <: done (epoch <- CalcEpoch (cfg_ethereum []) 12965001 ;;
    size <- DatasetSize (fun _ => false) 0 (cfg_ethereum []) epoch ;;
    hashimoto keccak512 keccak256 (hex "cf133ce0cccd4ad877d671b310c27f5ce19c28c14455dac45b90171bac5581c7") 672980924635838862 size (look eth_items))
  (fun '(mix, digest) =>
    same mix (hex "cb3166ebb1888430069b769145b20ba5e3a55f32fd2fa39f0ebdc08d60b4557e") &&
    same digest (hex "00000000000000012923a9ab2605573e0158adeb21c86b22d8ebd33b8ee08856")) = true).
(** ethash_test.go:76-82 *)
Definition etc_items : list (N * list N) := [
  (276212, words [
    0xb7b22fcb97729ca5ef2ccd7260f3a94f17ddbbf730a5398838bfcab9119be848;
    0xbabb82613bb92902d85dbc12b3bc27a3d4f955c199d5051b5f00dcfa76460b02]);
  (276213, words [
    0xfa3a5d13f4663665075dba9b6d32c4948c7a96eab0be547f7001e67e8e0ad3f8;
    0x84a641e84ba8e32bbf8c451093fba9e8517eb6386dd7db3718ce3655d5a659d0]);
  (1088556, words [
    0x0362f812bc371672b1d15ef635ef4fbc1b50a0e3b3c4c31348d6279b111c7570;
    0x12f3e8fccefab176923b09627910b91a6e0b0624e3ff98767413cba369094f97]);
  (1088557, words [
    0x8acf02ff884402c50460c0076b7c7f52aa7def90a1dabc66dae48f30b478f91d;
    0x363784a6fb7920c5f7f50f0d75db517c9c96d426ba58892bf31fb4829a06898a]);
  (1935058, words [
    0x65c3a4c75b461ad6e8b5299106a8f942811e8a6c77f936a4d8c76066849f5342;
    0x5f00f098df4941e517ec60aeec744832b87791732b6ae0645ef89a3dea945030]);
  (1935059, words [
    0xd8330ce4c9c67fbcabb3517888dcb85ebf237143f8bec21c32c024e4d1d85032;
    0x59bb2f53ebd2e579a5e278b29477561080f1f90d5b500e0f5a265a7f12aba1d3]);
  (3166542, words [
    0x3f05dd413ed2fd5596d939f12d07c2f4db06f6c749dc10112305e64991a98565;
    0xd8bb57874237d38ec7175b3cfae160be4c14ee2faf194191fde738f95462608f]);
  (3166543, words [
    0xf734558230a1d001aaef39ad90d14fafdd1b7a9589bffeea27a3faabfe614b53;
    0x0ff355c936ef599b3551a1fd51686648b8a58e85048372919cc61e04676ca5a9]);
  (4399310, words [
    0xc9144326ba21e1e1f46d0b9006fc01e023948e536cca48e14e5b33c9de25e9fa;
    0xecaf729742c34149e5a530e07edde4ace1c2a37bda7598b397ac153e2dfb2468]);
  (4399311, words [
    0x6fe354e45488ab576093d16bf6cd6c91cda813734c1331cf42000d8e20bd6b2f;
    0x9c5a8e920697116f48859573530adee1a30198d8c9bf3a6c20eb34421deec61a]);
  (4829024, words [
    0x96994cfdc064220ccb56427db807575fdb2dc211ce51015e0810f02c06e12f90;
    0x36e7bade49283c0ea7329535bfada32582876548039a738be440addd70bfcf2e]);
  (4829025, words [
    0xd81a3b2b77d52497e2fad1f4194807cee00110379027e07d1b6646f0423ba644;
    0x26881f3f81d1c2fb8c1052770c4a0cdbcc7a78ae16461b01fa69e89762508edc]);
  (5579082, words [
    0x26231e7e583e6aad0c8ea1593b0b06e186117bc8e2ccaa5bce126f8dafdabbf6;
    0xcde1e5ae21640f163267ab1f5fb3330f51ddea8dde87f856ad674cbad36b6aea]);
  (5579083, words [
    0x9da9218beb4261ffa9c1d5f9038ec7a0e472cc0df632abcff2287f6847a4cea6;
    0x84482b491a68c08270b6649fe630bd2349df2af0b729a69dce2bf61f840aaba2]);
  (6230246, words [
    0xf85f0ff84c8d5890aae3ca21e8421f008e8e90b2921608858dd1dcd3d91c8c58;
    0x4e9f806459ba7963af340bc0deebe55e9bea35cce3f2bb45eaea361ff7a0ca6e]);
  (6230247, words [
    0x3c1c56485142c79bcf0fdea4ce616d7997af48f92dcbb3a17032e7d6d6f58a27;
    0x1899d945018aae730d688589eb3af35266d8070c65179d504ae0c71bf24003a7]);
  (6235746, words [
    0xcd0a1a686574af8b0809bf9dca4ea655eb558ec7c1f7b41fd990be663a41d294;
    0x819b33a67e83b802431719efaed74f3bd979c6ed5662bff4f4d854fc87381e23]);
  (6235747, words [
    0x849228285b55ffb6445b4b1970edf21dd520f0c7478cd1c8f984c70622346733;
    0x1647db36466d95066e2e9d56f49eeb1d85302829822b769aba4d894381b5c464]);
  (6320662, words [
    0xc3b6c3327729d009fc3b4b60dfb4e0191434f50c5dbadee9a0eff90cf479afea;
    0x16aabdd15fc3ca98c412d203b980185a8b33fd619ad39c2ba40cc3f59b36fdc4]);
  (6320663, words [
    0xa04722958fb8c9c6e0fdfd82a384fb4d02d457dd6064da393775c609dff577c9;
    0xb6ae58b7887c1c1b28c4b6403cdea762acabe0ee87fde0a56b5c7f6401da9730]);
  (6341164, words [
    0xd59cc7bde22c7de91f31dc0c07c6728661bb99ad2cd9dd96225436a3bd118bfa;
    0xc81b82ff988b33da389cb8d30509ba328780c5267e46461b2c2498e9eb8c0bf0]);
  (6341165, words [
    0x584654589a021a8ffab1b75d03caa3fd45e911a358b0ff7a46cf3ac708892522;
    0xccdeb3e8b93deb86aab603121937de42e448a6454d7503522207e13b8fd24a48]);
  (8462426, words [
    0x27ec68dad49ea88e1c087a9007c7a42ea38b19e3adac11b4102a885875fb0c6d;
    0x1b3f5b588a8d9e0e1f2b487c363b8ef3b154a0adbe1dfa735ed72f0fe6afe927]);
  (8462427, words [
    0xe5d42f8a2831d636f7e367014a51cf29f5d455f235fd5332331a75dbd7a63f72;
    0x540edb770cbbc9e36b187658fde2b61bf98771b63705b84d7fdd4c74ae810f2a]);
  (9271108, words [
    0x63b24a8da8d5d1bb31fddfffa93574561253cf0170d28b89d088c65e7c799cec;
    0x57c965666fe30ec0d23c6a4439d17458eb74f86a5b2caa64ae651d4a371c05db]);
  (9271109, words [
    0x65469ab325d2894e40a5af41ce1391c9653d63554e415f628860e6a7a285374c;
    0x5c72bc8f4a4ce2dbd1810639fd59571b1edf962fef2d8f1ce0b965554ff9a2b6]);
  (9328620, words [
    0x2ae63d7824c89d60658ca6800ec753df36f4118307028f6e2c6d98f7b881e683;
    0xc198224b1db1cca5aeced4017a6ec50974af232b6086b4a07a8d0e8342373b48]);
  (9328621, words [
    0xd81e8cb884ac95a2ff4f69c405b5760e2b589ac6b3cd858c2efdf5cea1b31920;
    0xe651d8674df6be5e57532a0e4ce0d4a93ea7841f780d2b36bf85271c5790ac3a]);
  (9466258, words [
    0x807ae39428313118d9cc4ea33c67818beb56143737241430d025ae7171bfee7e;
    0x38b0c922294d94b08b6097a3ac2850a7eafdfae59ce9066d17ca3bba6606de44]);
  (9466259, words [
    0x95bcddcfb7f7c0943d4fa35fd1c85cc91d97a7f366364c675e23d126487afb29;
    0x07686fb9dcd4c806f9115c28c1aa96ac485ee4e516322270772cc6ae3050f2cd]);
  (10063586, words [
    0x4ebdda64b6a2bf96f13029d9b0650bb1bb3fbfcdf701715743e48a947e0167fa;
    0xc22a915b188bb1ac47918d00203bda66c96e1cd2c4d3a6a99d231a1f494bd464]);
  (10063587, words [
    0x5dc9c82597e3b6a4a7b36fadd82937245edfb26bb43840a07e61f2bd3b30a631;
    0x30ed1659480aacf7343f738e50720d44269e0390d6917a65c414b1fd70f5e57c]);
  (10831670, words [
    0x76a793f5cb7511d2deec97d1d0fb401d904d606387f5088719d77d5988082e6b;
    0xa8352a232f3cc70c664eb651e0a7bebb9a6822bf151d89553e53558b133fdbdc]);
  (10831671, words [
    0xedd2f9952bf7e5e7137093d1db0983d8b0c6a36758ff12d51499806fe001d174;
    0xfee4e2192875cdcfcfc8a39a25bb17e8b60ca62cdf6806ebb5789c65f31967d1]);
  (11920530, words [
    0xd414b3d149c4ecc36daf3995ac2b86d2e3ea649b76b910eff298e784e65c017b;
    0x64609b0a93d8dd703364ccc046ef6b163fffdf9e0beb95b2dab2fcc435775295]);
  (11920531, words [
    0x65b10467ed58870685c9a6970b8945910e178da4f92bc73226007f59a2ef07b6;
    0xc1b777b49f91e2095be6f11432c13590ff2dfd3065466b5868b2b04ad1d09035]);
  (11924316, words [
    0x44ef05db6ed970d9c17a16d3084116ab091d3f77dd6b9b8649a6cefa62a7ab2d;
    0x8498b7aaae52df98f87fd09fc54ebf891f9eb577ca20299216c4324a3e8028ec]);
  (11924317, words [
    0x4e898ce936a0e4365ba0e0b8c8f678a1cf1414696cdeda2d65cee0cadf40c44d;
    0x4b22018c314a93dc4e9005913e9d513a19ad24551334bb80f75fe7b42405f70d]);
  (12148836, words [
    0x25683ab8f5141c9a6af884e3e2bc831246c9e58c30b43c3514594eef5e3c9e84;
    0x37a0c8bdf5ebd707773c9322f4d32c4c1e73b4b81b15fdada104715b55dfde24]);
  (12148837, words [
    0x80007570c8f9370393ec9f49442adce2c4c4fe3ea3d196a87e95a345e8da4190;
    0x685d2dee2e00dc8a98acdda65c1495100df5667109e3fbba2033363e70798f66]);
  (12202076, words [
    0x383625647670424c39fd7e5f0ea50c0b6d0b016cc74c7295fcb60074a761f142;
    0xf34a773f0ca1c71f6acf1d2c8ca49dd2f4e452bc8d58f4a8c67f7c39a761a74e]);
  (12202077, words [
    0x3f9b984028132bddc19f332178b070cc71d3daf03315bb0f0e2abaef4786bd43;
    0xbb2372e9fcb90bef20787e2786be3d505c617f9bf0722d8c13f58e14636e2eaf]);
  (12220114, words [
    0xdf11f12542b2decca6cd7f5340b8666af631ea1c71cba6ab5a22f65c28ab9d98;
    0xb64ee40b5bbd07d2bb859c1226f858fd3bc46ec9b3f8689e4a7c326122d5d257]);
  (12220115, words [
    0xc98a2f2ea6f9eff8a59d32e6b18352bc71312d8a857068d022cf94c36b266b3d;
    0x6240c561f0c894aa91fbb5dbc8cf974cbf8dbd3f8a6e9beb7a371153b3656597]);
  (12603020, words [
    0xcb897c0b071182fcacc807e4403707c2ecaba5ef79e14eb660b352ae25014b68;
    0xc81a9141f7984ac08e3a4c58a046f1e6fc5c684a9e1de7521ccd702fe6a65fe1]);
  (12603021, words [
    0x19fe7bfbe48a24c0160739447ffbf0ac3305c5784b05a7944a2873ec6dbbf164;
    0xe7359cac326c0dd4bdcea72cdbe8f3651301c39a7ca997740f617c0ad7ab1699]);
  (14809818, words [
    0x6c36a8d353ad526dbc258bd9f5dc242380047d1576c6bb4483340e5c37cf0310;
    0x6b39cde5964a0b315dfcf23f191db233ce6456b3eca30430613565b3fa44761b]);
  (14809819, words [
    0x9b38cb3843ea6a945d0770402f0aaedf15815575dbed741c601405951421f8f8;
    0x474e4eb7324745722421d3e85cca91df318a8485c799c7ff38daf72ef8f7871d]);
  (15448006, words [
    0x622f61b5a5d596e6e42e65a73b03b0f619ca733711df0e1b5063a82cc2adcdeb;
    0x183e2cecb2c9265898c7d33416a68db997f251968b684b659940fb6b6b3cfaf5]);
  (15448007, words [
    0x52da3bc9750c601acf9e1b50ddefb433dd738a8421f5996e44f049bd44d0a607;
    0x26bd95906b8b9eeeaa06f19375947999e9c22055d1229edf28e78f06790a8771]);
  (17814752, words [
    0x187bbd92ecd0f8c254dc16930745cdd9ce309220d67cfaea5b397ea5aa27611c;
    0x59c3a4203a30347393e0f78722d6a433cb14b0980dac32a8e4940e7a8040f115]);
  (17814753, words [
    0x64502d3058a8612d1d5f72a7dd88ebd48bf388abef7f3a33772bac4d1e7908ee;
    0x897c507cb2cef935724f6e2c78433785e388493fb9aade9c73452fb1e63a488b]);
  (18311634, words [
    0x93a2663282f7706e88b2470e2046df733375e7bc1072b87cfc3d7bbef156c621;
    0xeb8e296cea97031ec88ef3c52187da2d859167a6c197ae441cbd4a374cf1c110]);
  (18311635, words [
    0xc640fd05487a63991e8842fcf0e73e5c226d10904539f6d4378a706311e81c91;
    0xc734afc1b6d215ce1235a91c0430752805a6ecc16227a1a0134d128a48af9751]);
  (19733624, words [
    0x5c167b2eab17db36d9b0ca0e4e4a0a3968e76fc213a9c7ccb675e1e4e7358b58;
    0xaa5adeea7b35efea4ebbc257d1b7984deee8b9113f764124d9cb7464b6cc623b]);
  (19733625, words [
    0x7c715797f150bc700b923dc0ba9c1ffcc0ab1c37bdb05719dbbe905ba39e7887;
    0x9973f530a9bf91d33e4e9b51f81fc37f002bbae5a55ca93e4a06045676925c3a]);
  (21786298, words [
    0x009496c0141be22e0f2ac92a8a9573110a0bc91dcff3bd4480ca51f342c32172;
    0xc24119b29ab43a4c026b7b7db80e474e6196f52b2c50e31c67f2bdc3b6b112e7]);
  (21786299, words [
    0x306226cca7d3325f6487bb03a0c11b6af2ec4f7be2f3bb32f82ff4783ab3f12a;
    0x995d0a4dbbe9549bae3eae266495c69cd408625771462e1902811ebafab2e660]);
  (21981950, words [
    0x2244b0facb84d05ba6008873a2f0a2fa96005b7522b871c280e0ac313b36fdfd;
    0x0b3de5b45606ee4c26fe8c3c8d92c3a76007e242091eaf68e2d21d09ae7a61f0]);
  (21981951, words [
    0x3d29411feef303d0eb4ad1524c329af9d76e0e4fa6d2d20e61d3872965e6af2b;
    0x59422d788066031394612aace1e34976b9ea87b9c36346a68976358e872f50bd]);
  (23520120, words [
    0x049c26cdd7c872e1ac00028218d5244ac4b1a5c61dd544fa840f396b2f2cfb7c;
    0xb411a73e423bc3819e7d9afd64e5c6ecb793493aefd95cc57b1fbb44fa934141]);
  (23520121, words [
    0x0779607ef772c9950cfaa2934bf3428136b181b17a633fa79c7127b3c59fcbca;
    0xc9e782786fe8464a54eedfcec8995a7977a534b4d2028e152b6d28d1560df18d]);
  (24869198, words [
    0x474ae8a0622176c9ae6e7e31c7dec854f8c6e9a8095ceba3d624a479cd3711b5;
    0xcfd3567342061e45e74db0e948d5818ad414bdd7948823dfec3b6239fc174674]);
  (24869199, words [
    0xbbce48e32273cb4cb39cbe633936dfee64727b040d0b973991ec125d28612c71;
    0x795a14e0299a2c675eb73565cb660016d6921419dd3a80bd3b91a18da8ef8dff]);
  (24942104, words [
    0x63b1a572450cb91e42f92a61bba878cde9dc4582d5d1ec6fb043cf087566a322;
    0x7779980495a4a07bb9171bb8b9b940e1e67f88b6e0dbe6c600891351afd82862]);
  (24942105, words [
    0x7631b6485f71d8e4e1b217e57b6bb195a465a0c6a75e62e1ba02fa1f139725c6;
    0xa80e0e92375bb15e9d68f90ef496d8916f035ec8dc2cad23b99b1b7cd23ed639]);
  (25432048, words [
    0x1fda6001cbe276f5d686d2c120b57eb68f01cf8ab94ad19a3af06eaaf8a252ab;
    0x3d94a44f847aeafac0f689e5f5156d149bd2756069e9c6950f77db83dd685a3e]);
  (25432049, words [
    0x1b953b868ed16cd4713fdc847e60b3affbd7275438a647b5a8220be8a049e2cf;
    0x802bff242a56810debbb246f360cc1a96afe9f3a1c3c41ebaed8d582e911e0f2]);
  (26921868, words [
    0x9122570be94e42397fa44555a3e598608112047138e8f60ec62d56f75389b26e;
    0xe55cbabb3886d6dded1fd4f4ba24c2342ec89bcd208ef652250332b40e081533]);
  (26921869, words [
    0x6e000bc743ae64bf13ef73baf6fe0521f7b24c0910424a2b070601064e20c5af;
    0xf9482eedf368594b9cb3f33865110491bc3b390282f52fff46819ec51c807913]);
  (27218240, words [
    0x71316b87da3a159921635bc805d1a13f1918373a856e5feb74c313ef096b6860;
    0xadfb31219cbe68c3b4fcece9296ae7ac731c08d9795a12f08d64a32a8875d983]);
  (27218241, words [
    0xf02b81350d15cc4e87605db2e6ea1717c63d01791376e4e55a2c5be601ff1da3;
    0x1d11e210fbf8e9f35ce9dd2acb845cfffdfdf75127f304cfef2a74e6a5223044]);
  (28861572, words [
    0xc7bacd18a8f2508bcca78443f67eca6c8f9313b5f32464b73962c23d288dfbfc;
    0x60a45bb1313f9078ab5d44531e36adb282802e5499bf285d2bb30e4628c3ffa8]);
  (28861573, words [
    0xd6164096cb326be47a90a457d549ecd3d97167621a50baafdc02ce8c684953ba;
    0x7b1961068cfe5e2fc1baa655ac970a6ccb0faea3ef62f60e6c4d56699f4a0131]);
  (29698634, words [
    0x338298dc1197e8cc5b46ba63762a2269ba16fb422569abe0b64717d174823c04;
    0x6ffa413bb9bde1beabf1dc8047c9d463e64f43b155d993d3d419e7ac2ffe395c]);
  (29698635, words [
    0x036f1879f048d6976218b1163b68d09ed8b77e2ba4bd9d95b9f74ce1d10380d8;
    0x30aa84e51a2156b21d432f0f903e4048fd9e2ba5a61e0e8f7e3c1d93e81ce5c4]);
  (29780926, words [
    0xaf0a131bad2f916d025a62152f97ad73b93261d314aac246f309488b4e8f0dd9;
    0xf5fa802042a94688dee8252b1622a060d7d20e7c009e6b8fbc75650da83de1fd]);
  (29780927, words [
    0xdc025fdbec3ab554e0a0040a40b25b82c802937adbe20b2eaecf690c0875334e;
    0xf6942cc1efe408f8d3a9510e8d3f0488623c2ccee11cd506be87cb3d6a1cc3c8]);
  (30203004, words [
    0x55ca2af2d0a9812e68894f565e22f8a2da22b2690e7f869b3b82099f4d535365;
    0xfe7169fda8299362b5da7dff67dfc4551a30d12f05bf49db58675fbe61b898c9]);
  (30203005, words [
    0x80cd9dfc466de8f5c238a094e39f43cfa6643438cc36fbeae6794a2cf790aaee;
    0x9b5c57e717102b1b394dda52cb992c5978549b15cc04003c15437b7073abe4da]);
  (30975538, words [
    0x616cb164ccd9f4a130328d8939d6d380721f3fe9c3d8d350dce97f10380d9915;
    0xcb44ceb44bc77cfbcf6f6c3b1c99d776febd063b787491674199b96bb73e3669]);
  (30975539, words [
    0xfb468fd28c9184e661a066ba71d8f507a7049ec7ebeb9618f12002bbdb2b9498;
    0x2df29d58e678da2ad88f6e526c36ad45199c0e85e91bd715afaadf1fb541f549]);
  (31483754, words [
    0xbb726266ce293a55744cb838432cb6349076d001b0b21b7e607f93db2c7c6717;
    0x0edd54e1f09ea873ccdbba98a8c444a2a1089a46763a43ea27c6df1708b30405]);
  (31483755, words [
    0x700e1f446110c96107d1e81f83276e84fc3a2aba550e8c53d165800dffecc4a9;
    0x4c04afe5b1954fd260282d6304d334cd8bb1fbb61bc9faf6c249efc927752751]);
  (32659492, words [
    0x0235e4b4e94e0e58396ac907dd8403f67c4ac90b3e626bf81c4f71090611d339;
    0x856441ff197cc118a483a6de488933f96e4928e27c1acf50080b69e960b351af]);
  (32659493, words [
    0x214e0cb62c0adebcefb77f76accc4581ad6d7b86b648176c3475e7ef5aa5dbe2;
    0x41551ba09ab8adf9705df78326574c85e87bb62e3b98a64f292cb35061cec422]);
  (33687762, words [
    0xc0ae37d1918da91e7806520bcef9f9693188c1923455b2af48c85e9d9d4cdcbd;
    0xed88dc05a9990ab3fe0d8290e3dcf6afdd0dcf016b7fc6724378671c657b68ff]);
  (33687763, words [
    0xebed86490b896a8b2b78a3f3d9d3190401f05f0773b9aa6466bb22021e66bbaf;
    0x6e50b3be3c1c7cb0ba90cd96f53e1708b3ee56fa5fb1d554a7a628731d7c5ed5]);
  (34144002, words [
    0x31f2438048d960becc0d1040ec6b115986584e3e0568c5c9da2370de3c13d81c;
    0xa45b3803b4f1ef4252a2df33b4309660b66741314c785eb193989a6d8fb8764a]);
  (34144003, words [
    0x16062ff16caa79027a18789789565aff3305bdf134ca5b62b23d29fd2c8168f7;
    0x58fa282a34e270be1b5463a95de9de13b530ca5089f71df2108025bfadf30d11]);
  (34720698, words [
    0xde67dbf3fe478a5ea6c21927670731b6a1617561caae0b1ea7b9cadfce56db91;
    0xb0172d8c7c1f90c84524629f5ac74e421148a46a9b04d4044c85a6107b139ba8]);
  (34720699, words [
    0xc8e2d3a2b4a7857d9db5c5e7eb379f8d0666a22a0701e3d88c28a9d927345f04;
    0xdd6e83097ec25d1418f1c33387f85a637169aa27d65b003abdab91b3ea65664d]);
  (34763302, words [
    0x25656ab93483604f66af5203fc51ae576f04b541c75bfce990ed0a8b0fc04f1e;
    0xa0b7a7d3695cff59ffe4a1dfa845a0433ef21d7e197a72a721372790f438c70b]);
  (34763303, words [
    0xb0db39fcd9b80cc00762307cc8e19c400092b4131517753d16e8be5d475702f7;
    0x5013442472572b7b16153af672ba1e1de7e49ff65d53d4fee6df526278fce4c0]);
  (35514204, words [
    0x16985bbf828b1919fb3875787b5c3f8e3e12a13d49caf56c01b99075201d90cf;
    0xa88ec5cb95ff5baec1fc6e434ab6fd1817ab52e4794acab78ad141249c43e7d3]);
  (35514205, words [
    0xe575f949b2cb6f5ff488f1510a7f29f5343eca1e9df326afb3ff2233d7623eb2;
    0xb770a37738e15fb659f9848aae8911bdc1fe7c6b616ef1e027da759850ca0172]);
  (35843128, words [
    0x21f17756fd2ed0160a15410b27e51e234e89f456559c278af4c4ff457178ec93;
    0xe9e1b072dca7d61c3ad4b026c1e338ac0fcc179fc56491a70ffccbabcfda42b3]);
  (35843129, words [
    0x7cbc8cde433049d6fdccb61d3c69c63c329c7ab25169d39162f7db34dc2e5051;
    0x9e3de490610e24e9be686d6fff7bc2fd0b41238803a13a13ccf2ff21c0531507]);
  (36079938, words [
    0x0339e596d1a2e5b2dc8f7f525ace44aef5f5dc200350d3d2840cfffb3188963d;
    0xe5fefc53a4155b219723df5a6d2445fc0acc8cb1dfc6e445b7126b4e9d329a37]);
  (36079939, words [
    0x6ac949b129887b65c9502039bdd9c35525d70f81c983ae3fedb0957dd726fb24;
    0x54588de3b2fb260dabc5d8c26712efb83c42a30bb5878fd2092c579c9c43a986]);
  (36863878, words [
    0x701e12f0dbc7cb1156881f0f2da85aa76b329512d0679a7bfc75a2f645137f35;
    0xf3dc1994c1f6b5ae4145041ba4206b73ca4ef7b25c1fdc18ce694505e552326a]);
  (36863879, words [
    0xc58e5a455152a3fc68a5efc6b7935606bbcadb6f94caa3e96969bd9389c74c85;
    0x927c00c12c1476a2a0de800dda0197592af1314ac0764b18fc720070326088ab]);
  (37170846, words [
    0x53497815482de6c1318cf0b581638b59a2dbff354d7eeb1ff5589958713e48a7;
    0xd8720f8696c89faa383f139f0f9bb21ad9b89f9674eace2ffa8e38d979297746]);
  (37170847, words [
    0x6484a2fc2cd0025d191c34a942696502292a13f301457439e44b93d594259b97;
    0xa0df11e2e5efd4b309aa38b3f3ee9433d0e9cbfb8f439fac4bdd92cc9116b540]);
  (37664138, words [
    0x35e4290df71b376d41ef5fec8287680932ec77c897b6ae2cda8abd51c1edef0f;
    0x2d902e191b42740852a9a06574b1f234098f1f700dce038acb2456c2161bf024]);
  (37664139, words [
    0xde8cbfe70f8109b10b9a571554c40022d8d9d6596f3fa510db48bcaef0b6d3c4;
    0xcb8e3db0db11d451c0cf88382f7bcd5612bad5b9a95ea9b5f3fc249260a27f9f]);
  (38790942, words [
    0x876858b937eb64cb35ff5c2a136f96d0cb3e68ee09de42c4e3ee316f4b706061;
    0x82ad82dbebc9a9e61486a66e687f5ec21ae10507ed6fb07a71442b1ed1d68055]);
  (38790943, words [
    0x9ae157993cb0ce49196871b3d1b2dae6aeb3ea785965c069cff0a3d6d2a1fe74;
    0xe1081569f9293966a0ccf24286117c02ba10eaf9d2dab8df803a6d3d1dab8e91]);
  (40662314, words [
    0xdb0476f3462371560c81bcb326bed3574c067ab82979b9ada3c22ed6cc5c7ee0;
    0x5270641eba61f2d9a8d3bb0ddb6a3e5acaf9cf28f24c3352af32b0445969f555]);
  (40662315, words [
    0x13d5a82b1caf7cf9a7e78c90393b6224f50d9be209e28023cc591dd958f8f201;
    0x3c66ab573a034b9cce1f68d7c61a3587c1cdb87d00fc74353bfc7146a912d806]);
  (41084316, words [
    0x510558efc13911c2682ea8415410e9a54a41876d821e9406c074ff7fcc7b0f8c;
    0xe9aa483ba3452b5e7324091b1a5cda37ae091da1e0ddc546cff43265dd8d8d4b]);
  (41084317, words [
    0x1049521dc54cff19e39374b10badec722662a51f2bce15e25748b11258f63a72;
    0x5d0a2c3875b7fd9d7f91c175460836a4c1dfb7b0317c7a5aa3d2e36d423c7310]);
  (42090102, words [
    0x8452089aa196d057b7f491dcdf264461945de52ec17db0ae55f464ad75f6a0e3;
    0xd8d6b3e48a2d865d4faa0b74189a2eabe15288a16afbf7e5d65d71fbdc873349]);
  (42090103, words [
    0xbb20e2c54c500fcf1cb2665a6aa266868dfae695cb9697873e41a7ba43dafa37;
    0x07fe2fbc7a130a0bc816621979289f69205a6eaa32610e698130819f5ec81e84]);
  (42890286, words [
    0x9508ae6a03f6561affeac981f0a49e7e58c954355aedc26d7adef281b5fbaa4a;
    0x15adf78270a44da3b04de563e9a0b4869a1172150f3b86516d78aa43ee0b2f57]);
  (42890287, words [
    0xb3449aa5e42a2f7e2e4253899b5c7b0f51a894cf4ff9067061af66d8278cefa0;
    0xc48d1f53ddb4c53cc1755ff6cff7a9f6597cc3b16fd155feff19d8ce684f7e14]);
  (43191190, words [
    0x3cc38c35500570b355aa93d111aaf6619fcdc3347637cb9df360428f62ce0143;
    0x19a229bc9ff2db7c9eabc1b18d6b05bd27209c6d36c0d22c38473d7d6f0a6e9e]);
  (43191191, words [
    0x8937ee0a3fee09b341e930f55cf791aeb0de3c2074c835d842ae4d9a011a66b0;
    0xd2a425d217fa77c015d700166d8ca2ffad1f3e90eacee185b03486c04eff4690]);
  (43414792, words [
    0xc5ed8dcbb89f5cabaed3ea990d4b107ad26ef21d525d22ec6860f8aa6227f352;
    0x5d8f4b733bb573f9d6dc3bd54fa877d02be1608af91a50d561faf6c7f752d523]);
  (43414793, words [
    0xb3b867c666533e99d8442200e236d518bc2d3593004e73e10f8387cea5704c3f;
    0x99768a9ca96bf36884cbc94435db9e058dbd55e99b8d97a374aa0ea855463f66]);
  (43588724, words [
    0xa3d1e3ad1938e149b11cc51f63a35f5558b27910104940ad864158f608b27588;
    0x44a5cb626197c73f0dab949208beed6327c9230b2dd431351ef23b38e9b0ba2a]);
  (43588725, words [
    0xccac090fdc5fdcc0de03f7091504f032477e26f30b28fc5b99263dbfc8547da7;
    0xa1f68aaa47be7a1a22d05029a494fdbb9c33d7cf3757910c09ed4d69ed0c0163]);
  (44584030, words [
    0xbfc2c419836a5b6cfd6f58947aba718d76480b43779c16e5fe4b2e1724528366;
    0xdb2d4def5cf9d898c8fbf8e50fc0cd5895aff71f4dfac28e484bad4274d164c0]);
  (44584031, words [
    0x7e2752e1eb4df5aaa2cceabaa54420cd2d868ea721cddaa5dd9c6f4246427e2d;
    0x1d4e921aef2ff351319f0875f16c3b4b0f3f631614e6ce4b0c80a5b15c979fed]);
  (45032560, words [
    0xc4a1dfbf4ace3f19a31eb540ad908708c4d820573892a30409b66949fe063d9f;
    0xe0cf1d827c1051c8a6679517bb74883701fe529bccfff5ed7ef427f14d854519]);
  (45032561, words [
    0x1ed2eb7e582e5bfc10bd97eada4e558a9ecfd8de2aec89da1bb4cb1f8d61f483;
    0x3a03aeb5f43b991126681c433735ba7e0f912e5c92f2bb9a700657a92da724f8]);
  (45275750, words [
    0x9465c46203f69ba07164a702b3b53aecb9b794ed6367a5d3fca5051188afc511;
    0xe9578e5c77e3a3685c6d616d6affdda8b42f0a3afc7445c13aa5396532719c74]);
  (45275751, words [
    0xabc05440b79a49c9bb7d21b06d7d62fe653491ac6aaa4c3575849e40320dc022;
    0x3ca777ace91282850342fc3c572dfbc806645e8ddd946169449763f42a8bd285])].
Check (eq_refl true <: done (epoch <- CalcEpoch (cfg_ethereum_classic []) 13344137 ;;
    size <- DatasetSize (fun _ => false) 0 (cfg_ethereum_classic []) epoch ;;
    hashimoto keccak512 keccak256 (hex "27eaf677273c9147cd27b99c34b3783243255864a54b169af238750c39b3c167") 10963879350564892657 size (look etc_items))
  (fun '(mix, digest) =>
    same mix (hex "6dd0879bfe248c4ac73160a3d2554ce12431d2033b5f4464559368d855795df7") &&
    same digest (hex "000000000000ca4bd2875398d73ab24e8467d5986bfe85ec7fca1b860a540d14")) = true).
