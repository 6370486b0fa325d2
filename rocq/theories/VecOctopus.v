(** Test vectors of octopus/octopus_test.go, replayed through the model with the real Keccak.
    The dataset items that the run reads are listed below; they were computed
    outside Coq by a separate implementation, since building the cache of 16 MB and more on
    lists is out of reach.  An item that is not listed panics, so the check also shows that
    the model reads no others.  Checked with the virtual machine when this file is
    compiled; no proof terms are left behind. *)
From Coq Require Import NArith ZArith List Bool.
From Coq Require String.
From Verif Require Import Base CryptoModel Hashes DagModel OctopusModel.
Import ListNotations.
Import String.StringSyntax.
Open Scope string_scope.
Open Scope list_scope.
Open Scope N_scope.

(** Eight words of 32 bits, written as one number. *)
Definition words (rows : list N) : list N :=
  flat_map (fun x => map (fun i => N.shiftr x (32 * (7 - N.of_nat i)) mod 2 ^ 32) (seq 0 8)) rows.
Definition same (a b : list N) : bool := if list_eq_dec N.eq_dec a b then true else false.
Definition done {A} (r : outcome A) (p : A -> bool) : bool := match r with Done x => p x | _ => false end.
(** An index that is not listed panics. *)
Definition look (items : list (N * list N)) (index : N) : outcome (list N) :=
  match find (fun p => fst p =? index) items with Some p => Done (snd p) | None => Panic end.

(** octopus_test.go:18-22 *)
Definition first_items : list (N * list N) := [
  (1312704, words [
    0xb97c2791cfbf8da105222b973d7a02b9aa371496c2975f5c9d19378920e0a221;
    0x6094e4163a8e9c59fd63e50bacb5257b82cf0e74062cc710738a2d27b034beb0]);
  (1312705, words [
    0x9838a79ed54340e6b46f18b8115aec011a4a804a84c3d881c8280b9d86b6217f;
    0x6891109fe2804f72a32783b79cfec9cc507241fb7d1f3ab642ead273b968c3f4]);
  (1312706, words [
    0x50af2b1e3ac2e7b88c5f2de0c6c354ee8f17158b0cd11d063aa765c416ac7aa8;
    0xa92ff476d91477dd3cc44a8e7f8f3954f8b73a655e2f71d446fd377d2cd25cbd]);
  (1312707, words [
    0x72d68fd2e950f760ed78b3b29dd39512335bc84a72ceec35d2366477016f7f77;
    0x7a7c9d312aa4adad149701662b54de7f22b2fab13949ff652af7e448d1d9ee5d]);
  (2669236, words [
    0xe199024df2abbdcc2f02d6462706a6878bf1789cab394366414430ee4bd0ae35;
    0x608f5699f5f794d626e3a68a80b944aa7c652acda143d2418c84d84a617505ec]);
  (2669237, words [
    0xcb0b58e76908df47a1cd021f3d786f6f093395c8f1fd6e7878b5799ccbc771bf;
    0x78a63fb4e27136fd74c0dcf13fe49775d541df2d1918f6899d0ae1f67ed58b9b]);
  (2669238, words [
    0x9256d9697ae893f440034296faa1f0f9619a748310bf0b6567dd5320804bce3d;
    0xa147aa6d642254ebe001f457156be02eba172384dc18924854113fdcef02c365]);
  (2669239, words [
    0x35a792e684633773a6c383b969ad770cc5978b5c348f1befd67bb565e2e33fd8;
    0x31e178e345bb7642dc0e71a2ff4da4c4fe057aea43412af9b116dd57bcb02cfb]);
  (3543868, words [
    0x71d14b57e7d8e5282bb7e1737808e883d1d87c13ab48f98a6694945f220f4b50;
    0x8cc435ef5a78a3912650090dd8a66ce74fbdeb5f9af9dd4bcee42fcec9abbe9c]);
  (3543869, words [
    0x3b02cc06b4fe2a0d72c532983e0c4b69bc63a3d7a261a3025e7d8bd256604ef6;
    0xf9be7837c26c0d0c00648151ae4147622d461e03c0567abd487553c7c37cbeae]);
  (3543870, words [
    0x8e344ebcbb626786a0de3d6a352205055b893ea41a49ef6ccba240b72e4d4b65;
    0x39d61c309aac61d8ba0a6e3e41d27560f1d8a8dee23cf5ffe61e72d10f80f6b9]);
  (3543871, words [
    0xab72a963dd533debd304d6aea9a3b869310298773b6b6d581422498ede06b9aa;
    0x6d88d6fbe593882f3acaf119725362d74598ee6a6452b4a7d76ae9c7af1b2049]);
  (3709936, words [
    0xca31875e26b087b60e6ffb07b514079131d999f1955c3be75e1a6b3c9b5603c0;
    0x431c2b870affef70d77a679431de0d00f5275544f6cc705c4e2699572c5ca31a]);
  (3709937, words [
    0x162f6cd0eb634198246749d24aa38904b02d0aa9b3f6a7bc62e73fe3e2a4effe;
    0x3922103bc79b65d85960c31bef5a44fa2588fbb3292f07e7b8c105f27bfc2fbe]);
  (3709938, words [
    0x057216391ced312fa224c057eb01fbe44a9a195d711574671f971919974e536c;
    0xf61d1d3ad5f8f032b35ac514d913ad03b49191befba97fb118605e0e691ceae4]);
  (3709939, words [
    0x0b028bc98376498148f81f821b62cafca79d006f31deabd4ac20b09c138d55d2;
    0xb0cef048c60af34da32ebc7081c61d36760b052294792b897e805a9b177aca1d]);
  (4824832, words [
    0xa96568fecb184799ba3b55cc6ae61e3551f50c12cfb5311c4048e850914b2cdb;
    0x11ab0e6379c502bd5c4305384d1ede795c6edf3a3c1853fb4cc22bed24ecdc4d]);
  (4824833, words [
    0x606989f9d1e07b20ed8f42749b34e912311f2ed4344c7606071f904d9c16c057;
    0x4b57aaa09928d2591211b8cfb6b92254e53fed137edfb34cd2f035e7bda96fd5]);
  (4824834, words [
    0x28bc52a12eeb53c59e52d9ea94166dc26eced55e5f9e1e66bf5613161f6eb4f1;
    0x898d98e47939a18bccab60cbe7f580ecaed39ff9df31990b33b6549b22a95176]);
  (4824835, words [
    0x5740f0b1125650a6cf3cfb60d944c5250c171fdf06ac996cf9d06310d56afe1b;
    0x734fc5dc09b93adfe8d6d2251470a31719b73e20eb97286341c9622ce09b1b86]);
  (7499044, words [
    0x2b5284f553960252297d7ec6e2194766297e6d8c5032dff4d2ec995a28c3f7ae;
    0x98f120635d5d3a4a3754f9be834a46b7e6e14e1674c71c55de49805e8c9fd796]);
  (7499045, words [
    0xff8ddbc53279f51e4fdca6eae496f7644b2efafa5b5799c288cb6806929b06ca;
    0x8755cecd8114510f90b80b85dee52a51c9ceadede30b27f7797a9518cd8e5ee9]);
  (7499046, words [
    0xd5749ce2c4bb0a5689cd2810f5195d384307d3b4bdb8d2af1254f0d1e42e0c67;
    0x5ccae9e3ce17fc458223e28021b6a8ecbddcd79fb48dc8464a8d7af1d6e0d091]);
  (7499047, words [
    0x4bb52776eaa22234c1b581e5a4834e58a219fa0ea42d1284f3b8fd5ca2754c6a;
    0x06705972ddc90b57470f439ccef481301571d71e7aa6c63684e8982cde453b3d]);
  (8430612, words [
    0xc81afde32fd143cfd06f257b754693ac14fabe848730c0488dd80f12f4a71725;
    0x730de8c325e6104d66728e20dddca167125fed8e964a482ca77f00c011cb9b82]);
  (8430613, words [
    0xcbef36e7992a56d3e4df837b64b6273261c01284c5f7bebf4a95f41863690663;
    0xcf38bf106fe3372cae293bf7d44433feaf00767a2a2de0d60a4a90338a76627f]);
  (8430614, words [
    0xd15dab175ef2f9f36894aac044897cf54183f7b61ab48553a198602670e19715;
    0x3760f04a8fb875b62daba7ca6351c38c9618103f2540cc89bd969bb061b98890]);
  (8430615, words [
    0xee8f8fa5b454782b0237c3db5eb5d3f1a9d7575810cff7f380fc01c6ecf86632;
    0x8f54931bc01c2fe8d64217e0887ff4dfe0811fc49faaa6e2211a9aeb270552a2]);
  (8697564, words [
    0x3099ee5903d45fbacab5d5380f65699a436cdcf3b06af9d7e9b1f9bf0f8ba9aa;
    0xe6e875227efa381c6f5a8631857143aeaa87032aaff6a1edb08feaea81fccf7d]);
  (8697565, words [
    0xe35bcbb77be82c15b59b1101f8eb2a2acb00455ecac5bf74ba594a2e5aa8daa0;
    0xbdbc40173773ea765036c9eaf376b3529058edf48199a908612a059b64183ff0]);
  (8697566, words [
    0xecb13c63797052d4845ed3d1219065e061d527f8ce4ae9d9b1049ed51da36f29;
    0x6d358eecff72f65a92c9865532a6b5dd875af54519d8c4fdeb03553e540c04b5]);
  (8697567, words [
    0xcf72daf0394628f2dd52dda6bebbc59cdd228d70302c5e558096ec36de6c2736;
    0x47e589d56c55e58a143d5044517d1c941eaa7ce299458be8c90e1340a54ab2f2]);
  (9199108, words [
    0xc4e9724ed91791a1e02e11aeec83c5b86fbac2359db8b5ba387ea65c9ff5f475;
    0xba83c33b43f12402b78a069479ee3a8d69e92c26090ab4c3a596ebb928d8cc93]);
  (9199109, words [
    0xfd763d2d9b1cb410dbae307c8fa9e36ce2227530f96bcea0b7ba533a8f34db1b;
    0xb19a810138caa4528ea8fdecd5e33693d75edf328fbfd83f572aecaf21627308]);
  (9199110, words [
    0x78f318f20285b785e9cd24dbf9669b13c62b7197e6d30719fe582b33fe802ce1;
    0xb2bb920103c47b6fcec34dae33f67f8328978e2e7e0445108b5e3ec8fe4b44a8]);
  (9199111, words [
    0x7a679bb4dd13f0fbfedeb1f6eea6c7722beaa8fadf25946a9e12215a71fc3505;
    0x4eeb65bbb9e9aeb65f50541806bd90f2565b0fcb03052a984de33b2ab3153c2b]);
  (13117640, words [
    0x4b642b6322f02d4c20d90ab07925d5117294573e272b6967d3b52e94a5fbd824;
    0x25cbc1410fcdba14d349bab5c93737c41dc62848309de7dffa3a70db5225b3cd]);
  (13117641, words [
    0x1eb0fd79ee2a15d6cc621fcdfb115f52caa414056b30a0f0472cddd034fb1c9b;
    0x0947ff9c2f560fa317a440ac89a4532d31d59d87fa1eff64f871a7aa89e7ad00]);
  (13117642, words [
    0x1b063b56e6a35495a23d567cae47cfa8c8e15a08a275aca334f8f67c91af3ee8;
    0x4ce0524f598b3dafa8cafff93984d1c34b787f98bc5c32eab66b792c07f43dcb]);
  (13117643, words [
    0x9e83d16b79f4f5b0f13d21e33266e1fe7a5608fa9ab98337c4706812f616e98e;
    0x4ac20a9579fe24f6ca3925bf63223b20ff96abe18f977f74598ac48495f886b6]);
  (13872056, words [
    0x3c456cded92fd1a5ec24093f2147575d6abf0760f1ad81aa7606a6217db3104d;
    0xf1b3a72d7ad2b264233d376c72732e482ebcaac0508666755a3fe05ae2fed89b]);
  (13872057, words [
    0x26747d2bc083bc4c3c7b4c9bc3c11a87db6bd449afce2c97a56d5beb1a98a645;
    0x47750d8f300a4e54089ed75a6feeba4e42c64814ca7b9452b06ece8b60258f30]);
  (13872058, words [
    0xbb0f505569ea93545960191abee7428163439c8d64b2fd805d50daf7d1cc771e;
    0x5ede14f00400f22d9cc3f54a28bf13d394465383ec976189330d228d73f241a4]);
  (13872059, words [
    0x8564fcba5183b3974db53f055e1ae053d4cb208aa1a28414d10e777b91d3bbec;
    0x43ce34b896f1f96f71b36dbec0d887ed7e945d50efce5336cf6c2bbe2f5754ed]);
  (15311228, words [
    0x7052da6346899dc4c4dc2493553fa503f0f54e513f2145c239e85a5b475a4eac;
    0xf8941305124e70d5c0bae7fac211dd1a58827292c0ad42940545a7ea24a28430]);
  (15311229, words [
    0x80c9eb647d950c33cbfd4867cd577b399b178c677191298c86ea59b3cbdbc96c;
    0x915f908af0c91d83be5f6bd65a7c9810783c420d8351bac1740a8618d306980b]);
  (15311230, words [
    0xec5d0be4c2b0fdf87dcad51d57a82920fef3159ad693ecb5cebd84e5bee077f5;
    0x671a2c7ffa96db77fc33985a7a304c024fc6fa339ca3b7e9399f6e2d3181b58d]);
  (15311231, words [
    0x59d04afa2ff24f98ddc4dd38aa29ef51c7aea4e94487d18612720b03d715880b;
    0x04918c70080f4728d9aafd6261c80e30985f31d0c43558402a7056dc3627ca43]);
  (15940340, words [
    0x65e239c8d14d41863c40a7f1ecad27b64664629797e6913ad9fe5d56041a73b7;
    0x074537e3e64686921c2af29d86d3055130e2ac9e4e6f25f3e7ff4ca166e387a9]);
  (15940341, words [
    0xbfd4cc3f7ccc618734529746a1eec47c07d88adb9fedebe7d435ffaaf5e58456;
    0x1bdb115cbcdd2a6b2569871dfa023740207da08cae8a33a8c49f94c40069db0e]);
  (15940342, words [
    0x15deac7e13ae507d4676e2aee5929f7fe59073398f5604df4db1ad0a7c91accb;
    0x30956f2a5cba4ad85c5bf1f851e2877676513f0336b699aed564489b559a4e55]);
  (15940343, words [
    0x7e656559218f2fec89b45bfc6a83ad2aa39af8635d0a9a0dfb3d68e68595cb13;
    0x838b6e7cf6025499f4e34b374d34d637c27223dc60413b7eaf242289b08a740a]);
  (16331640, words [
    0xce133edfa2d51505d17be5896d072ffcfb69c3e869bad6599fee80eece68b280;
    0x7c1ed99b526fd787a5e44a9ff5be1ce730c8f3685dd44f58f8047960f2c9e6aa]);
  (16331641, words [
    0x2328ee4e66131c0d6a18643375590a859f7c19f66865053e645642fc606bfe91;
    0xbb75ecf30562a218de2f9029db7fea467a21a78d167067d3dadbb754dc3bcbcd]);
  (16331642, words [
    0x4959481b266572dc0d0e798ca0ba65f654aba07aaf6905b7d15bf14dcec942c5;
    0x7a6f23506ae83948fda085c6cb165c2bea73f18cd9fc160e3ee9ef66e25c7420]);
  (16331643, words [
    0xbaf14fe591417d008c2b7c8b3a5e8d14c4c2580109fea897757bd10e74e0581a;
    0xf4a66847443c839a7a6ee014aa155e3ee9f0bad7b95779c001397b926bb01b5f]);
  (20010808, words [
    0x8ac6ea009ab852f03948ad46a51d045c63f7122a7067cd1fe68b41515dc1677c;
    0x60fbd23f61f80999f8ee4f83e177a7385c2d477d2bf0fbfa756d5a066f9e56e1]);
  (20010809, words [
    0x27940cddfe57f67fd3adaf768565db858191426756ae48ef65ab8f3b04a77a03;
    0xd074e272d1768db075abf3b7bfab8d3fd28ec022490c7677767892b129c26c25]);
  (20010810, words [
    0x16cdc413bb19dd24983ec3e379250ad351a874c6b5f5f6ace15b6c132a24f000;
    0xbdd2e8f39b5cc0836b3dbd24c5b81aed1d5b00cab7c5002e4ed03653dbffa0fb]);
  (20010811, words [
    0x233b183cd52c9556d2bf80e24f63b8ab609c29f805c5edd970ad8f6b1a763e15;
    0x20749daad620c742388102614f7f8ac54c70a897e3a9080fb58a0b10cde119bb]);
  (21381944, words [
    0x9e5f83665fabf60c98ac7e8b3edf577d19e4e1552fd97bb3d1703086200bf34c;
    0x290fa52eebd8193055579bb87d67bed52161e47f19fa50b76a7f4380a7a2fda2]);
  (21381945, words [
    0xa36552cabaf407f96f042da3c1b73bfd8a04385abd6703510f1b4b95fd62bbfc;
    0x456f3355652da7f88615d5fa35f64c01895116f0aa5edd469f95d1b532730359]);
  (21381946, words [
    0x1255a4bc9498c7f4ece00b90149154c04762d973b6f830c516ee4ce756f669b3;
    0xc5db97eef0692dab0f305d5997bdc7d75fda2d76ffa5bf5f9a14171fa1e3c73f]);
  (21381947, words [
    0x20129bfe807ca91d24151b20a54fdabd68237b6d271df0c4c51430b9aad5e85d;
    0x60c8d0bcc1024a3aaf9f9c7ba1d6076d972be9b1c079a5ab88953b1ada2c375f]);
  (21464024, words [
    0x3d007b3287c45d075339ea65d38e0b83575f678ab326af77a82da563478c8d12;
    0x8dbe5f8af4ffcb63ee6272977d8429e73a312a24683f2d246a126fd1a196e63b]);
  (21464025, words [
    0x0019f5c4e49fa7f7334baeb794555a4dc5f357c22c5af150bf29c32fdae6f888;
    0xeab3c71b3cb0b5c22a6abcce92a6389049c0c43040f608507afacdefe69ff318]);
  (21464026, words [
    0xdb32c857b7d265b0529b054f0bbb6da6dbfbac3f2a2cf908ab0069fa63d368b8;
    0xa9fae61c06038e6bd2869e8ea0c2c421423d0b20fdc77b1a84eaf564cf4cab22]);
  (21464027, words [
    0x95edd5a2cb503a6f6a0b6363eb016edb4220dd35a02786d1bcb7f0f9688704b0;
    0x41365a21d49b60ace2bad52594966070064588171397f823ee19d38af4345993]);
  (23789368, words [
    0xb8700d09cd0d875351361c19c65a67317da1934de8fd5bd1ce231ae0e12d7eb6;
    0x72f73ca3b65713393f0de4da620018db41683260925958e1c0e15c977fd8dfaf]);
  (23789369, words [
    0x54d287aac7fb6ce48779500a19667751c361d0790c267983726074ccd8543b97;
    0xe1043a04461e762f8cbda3113f8b0af8390d88f7dabc5adc3f5be0e0850d3cb0]);
  (23789370, words [
    0xd7e527c08c9baebfc39957ccdf150c40556a28a68acbdd0fc8841413d8013d87;
    0x4f91c107f6e18b14853957e33250cccbb896d374296d62dfd1544ba5904bd024]);
  (23789371, words [
    0xe29b907a80adf86f33e77ccb6d67c6d1bd4f511049f1b344f5a38017fa1e5be5;
    0xcebb4e66b8656fe9daafb7ffcc7f06424b72274275a0c54985ef036c54bd8e7e]);
  (27777424, words [
    0x8e2d16274ccbaaca866f82649c54df2532940d8907e7fa7cad9dae18cc40e3cb;
    0xd3f074aa35005a218058aef1a72efcb5600104fdc86a50d21309504dd2824e60]);
  (27777425, words [
    0x054c10a5f90d149081c70379d889a6b12200e088f6fd1d8cd57a23a55992b060;
    0xa9ce15f0e7a50889262db5bf74a5580d0fe7c1fcb16dddd9c079954e03a7132d]);
  (27777426, words [
    0x4f999da39ddbcd0766163bd496640716eec6443a287bdff4848d8fe966dd55c7;
    0x7aff81baf356f105fd8937f0e277fb25ddd0ce2d2ca3b83f5dfad3ca825bb3ba]);
  (27777427, words [
    0x009ee53f76e009906c0ecd62f06a99ce1734e97bcf71d94a1fbc863b79078797;
    0xdccf21edcce499820912faf3ae953e7cfe0c7c714aee79f9b5d3547357b4f61e]);
  (28139332, words [
    0xaecc33de1b4d81e221ba27587cbbcab227ab202fbdd2498040e8c22ccb693a57;
    0xba61c83ca1cf3e6d6d572fd3df9a6d20373a4fa0ff9e031a11751cb9a836f385]);
  (28139333, words [
    0xe1c6e0f3b80b1918f1b511dd72f99e258d7817e65fc8071f1a9fac81c23d1e52;
    0x3aac80d89a6687b635bee2619f215eedf5b8ac85e5de8218b0c6146198034374]);
  (28139334, words [
    0x6b3c2e320c89a17d1306f654bcb4c876b2a056790d6216f3e0e556045f8a1a2c;
    0x441b881f018b6b3c256711ecb0626732ef5fb37b0ef83eb8e227bb5487ee2b88]);
  (28139335, words [
    0x36d59bd11c1cddef1da62431e87109f8cdcd4224856f02d9f5c100c7349831a6;
    0x9cb47129f77b21a78b110c037e60e50f3f0815fa3cd9a14e2b7e7e258524e4c4]);
  (28171628, words [
    0xb853489c2b9a95171842db17fd28e5b4173a37f38e8b49a4c8a4bc1826b7b3aa;
    0xc8134a031cc1c5b80b075648ef057cb2a4b8f5bc4a5d921199a58ba39457795a]);
  (28171629, words [
    0x80a3fbcafb37ffd966430ebe414e91ca3b044bf353182e70f852fad987631023;
    0xb18faf2aecb5c94ccea269b47ebc97b5375634a470fd35e95e3e6eac4f190a7f]);
  (28171630, words [
    0x0327a0cb27433e37d26b1cc8e8082a3e217cfb2625bb167b4cdc6bdd134ebfd1;
    0xca4a96981fd71b663d91732d3fdcf5cdf74a490fb71c6ab5712984fc5880caf3]);
  (28171631, words [
    0xd687dd5545140c43a670bd2726c085333272a2c6de3c2ebd5c42a5bc5fd99a91;
    0x6caa7cd9b19f2b4732e706bf888a088385ae12373d2eb6bbb4e2448b8f07715a]);
  (30194748, words [
    0xb33a1adb029a6692a88ad7c6d6e8def3c3d7b2dcf57ecbcf2537bf7f06bcd476;
    0x4165d188b88a8f224444afe49bcb1de13b57cefbae7d0936b9eec33891b5d325]);
  (30194749, words [
    0xc5561035b1ee9020cc977c4424df9ed852f6641b1776b67890814ee1ace8304c;
    0x15966775693dc148a37c027c4b3d852515d08f00a962e313e4a80ddba4dd0c89]);
  (30194750, words [
    0xd508472b5a90d24796d19e7e2597ebbddbbddbeb88367d17037a583ec385b521;
    0x30b15ed0b7f2bfc50d982e679de6c309ca6703f62707d4784f353ab8866549bc]);
  (30194751, words [
    0x63d4163e2df8ad92960fd8bf7e6d22e93e0daec7d90b64d40e3c9184049b01fe;
    0x79d9f429590f4c7b398895c42a93f5a80ffcb1f98b5cd949e140cf6386ad5578]);
  (30201868, words [
    0x2d8a3b40eaa78df688782ff3af174cd6f82df16d2299b2ed3ecb99ccf71fa6d2;
    0x521c9092541095d59dd65c9a9e65bf6df7668be31f936428f44d872ddf66cdbe]);
  (30201869, words [
    0x989cb65dbdc56ce067714982bac95687dda4deabfdd68ed5a61c8b4300b2db6d;
    0xf5022aed2ec0272d9dcf6637b6647b25919d75bbb3436ddf0b134bb740145d5a]);
  (30201870, words [
    0xf96d5bfe7ae872e7c9a9a3b80b2ad3a63277836f23fe8498b215d6ccee4a7af1;
    0xc1a1b57b3437cee82df3af791bd685b067d318111391fc37aee967408f496db5]);
  (30201871, words [
    0xafe2d6e335594e5af969a39ff81fddedd71c60bffbf95d8bb63867b672474fc6;
    0xf379ef6157921030e8f246ec387b005b7b2a6d936463dd360dac6c3e474bd3f4]);
  (30588100, words [
    0xe48e448adfb8bbed39abc2f690e923a8bbf28b2d11298308b2c9e9695233a32f;
    0xf810777f8e6814244b22b1fb72f376ff3b23041c5b43df9e23cf0cb09e444143]);
  (30588101, words [
    0x88a023f8326431372c8c4bd013f0ef705335fcb0aafe5d52a6bc7c2385a5c951;
    0xdd3733981a40e1b11193c167a79b884058e6cd4a822f1d2964064caa34fe9386]);
  (30588102, words [
    0x87bd1e54cff2aac1bdd305cfc7deedb72aa6b99dfb843056280637dfaaefe79d;
    0x54bf6a59cfe1f79d6f731078b270d833b5d4417e3695cf6ec127a61f1691fac0]);
  (30588103, words [
    0x6a82e1853f01645ccb535f4559c3f8dcdf896cf9720fa0d4da35097ad3715602;
    0xc183c4e68c462ffbe47780eb6b8f17af68600d2929b66b13f4ec2890f5f85e11]);
  (36621836, words [
    0x821f3162898b031be95d2eb123b106de151943b2ac9d8c475be8c57370f59f56;
    0xfc0cb2e34c7b1d316112cbdb7db19a86c4d0a708c23ac71e8b42f8f735209026]);
  (36621837, words [
    0x06e90aff3e72320147949865234f140a4b0b7024a59c5ab53b06194dc918b655;
    0xabb31b2414480952302c133548ae2455d38b1f8e943768352de78ce99c4b732e]);
  (36621838, words [
    0xae3230bcba15ce53360f27d52097de547df86d6aeedcfbfe69cafffb6e6b27bf;
    0x6f7b12ccb16baca263e22f9b93129ec1192b0858b0ab81612baa9de56c210d45]);
  (36621839, words [
    0xe42ac2238ce96bd91d9da5da7334486bd631a28cad247db2cf534e932ed668ac;
    0x1b2563c239185c5e8aaf6e5dcc1a4c0e436950bf9062757fdaf6ddd65b0d7ba0]);
  (39789960, words [
    0x6e8924a9012fba859891a49b6dab1843fb4edffcee11926a16c0ee1414b21713;
    0x8f81a739644f2542d8feadd092601b3b0c2dc47b0184ccd192edd417c4dd7c20]);
  (39789961, words [
    0x37ca4a5de4d970c5b70e2c64fdc8bae1db22675d6a360afaf0a70265e56b4021;
    0x1ecd219aeb8c6173ac1d1b977c8195c7a48df7aec9bda4b28ff7b748aea25cea]);
  (39789962, words [
    0x26efae00a53893ac41c49f55a1511ba5d0354cf0fb8ef68b80277b2993dee21a;
    0xe7ccb5726b37952ce5158d5f12606624c28a1811f39951418b274ab5de593991]);
  (39789963, words [
    0xd82a9bc3ccba21c728511ae7c9aab6c65bc90a655d4b549c72e8fd3c1045878a;
    0x4d5e0a3d3464a183d3a114e1d3e01fa3ed092a9a4abfaf55990982741319a524]);
  (45238108, words [
    0xfcf435e6d3fc57d32f5af40f0d7764c09bfd653eca1617ffd33307e160073bad;
    0x35bcc6444e56c153ce8bfa66efda56ec2b3c9efa11b8f6ae9853bc60c1765129]);
  (45238109, words [
    0xfabbc69e190cdabda9b953da44d24294d0887a8b5ecdef458d18f18e01a7e02d;
    0x10cc60964a37097a237f56694b2543a010a3b41f76218dabe047039f028d1ccb]);
  (45238110, words [
    0xfb54876103eaa490ad1c58b1c2a838ee95b350181adc7e6ede71f166e519b15f;
    0xaefeb34daf9295b75b30cb777efe10a26660b02f1bb3c6e4e4c7ea82753f1358]);
  (45238111, words [
    0x97d5f075bf2d8e8dd4e47b0428ef890e885a5212b1051bd7d3ebc38d5402a729;
    0x8c48859d371a7647b5460c219994dde7321958982aad92ed4fda9304de1a8548]);
  (47872000, words [
    0xc73483df3866d2011cbbba2c20081351155cdc9f009073902c1f749517f0be79;
    0x9d71eb23f3d05c57b7c83bbd5f7b4e62e8a1c4c0335151c84576cd2dedc2fd68]);
  (47872001, words [
    0xe55285abb5f2f6489bb05eeb1c4aa61e175e40c9e02603035f01665d79586172;
    0x9446a7c7a8dac2fdf8c83126662fe944a4342f0594c3b7d2b723b93e579992bf]);
  (47872002, words [
    0x302103eb15921b5c924897ffcb9cc418586f0c258101a289a84a03e33f8dfba9;
    0xb0dec16297117f73a01952f994bafbdc1e6e108cbb4eed6293100e5bff1ff330]);
  (47872003, words [
    0x954c018b36a2d94c8dbfc8e9e6a94c0d98bb97e1c84b05f548a97a5747509b38;
    0x746ba1d5f4d96437fc18981240a0fe9c6a6bbabaa1ab602be80f351f9e64e1ad]);
  (52351040, words [
    0x990e96daa83c255915e467ed445b2b637a66ded4ab8eb9915395f2b7c1c9a01e;
    0x947f95356105ce18a960602e8c4001180b9172baf07e5363548b66fc34bd3ba2]);
  (52351041, words [
    0x8d1239a0766218a4f350e840a836d8f71205adec3368d4b2d8ee8a959380d0eb;
    0x9941d574a07ef268901ffe7750d86b5b173489cca500e3579d0967fa55dfd348]);
  (52351042, words [
    0x4e9761d8815d650ed2a1a5b41e5985368d63bf8d1265b079ebc52fac55cd454b;
    0x37767c331cd47b2d6de0c59a26b6dae4ee0c89cf9fa0aac79269bc4b19e524df]);
  (52351043, words [
    0xa04039b504e51d4fad722d8c36a44535ea7a4ca9f48d8d267674e0f1681e2b27;
    0x62674419e799a14a68d09fcf8c78f2f26bb575b5829df768998b14eef7a1e115]);
  (53424736, words [
    0xfa587286171749af74e5fc351b3174898578ce2d5a06349d180d4b1fa2ab2094;
    0x6b51dee89a22057fe23e7a6a6f9fec63fe62421f8e0824c1194da804394d2cad]);
  (53424737, words [
    0x8041c427d62e9f150ec58eb5b9de6a3d484d9221669fd2c6157541e506b6c87a;
    0xa7e4d83fb6de01e370e7b4d287d3358f5508d15b759e63bf9c6da8891e3ed9f9]);
  (53424738, words [
    0x193b75c16db0b6b2a4a0c065540c74e6eb2fed3b07a8d610b15accc30ea21907;
    0x8037494de2d4c0a00042a65a87d4d12f62ec36172962d64fdddd8f9eb869190a]);
  (53424739, words [
    0xf3ef641c7c30072c2a1fb4e3c2c1c5bf523557a1fe707936d782f407d6be667d;
    0xab7574a7fcf42bbcc45369e06fae328aabd37cd1ca9f9109e27e4039508a8c98]);
  (62950764, words [
    0x44eacb27f0b1e5019271b5201a3b6dbad176d69a13f25cfd2dcdbdda0431ea24;
    0x62af250998af2b40488a819c29a98bc15aef53764e760bde4c3298b0202a4d58]);
  (62950765, words [
    0x4236403e8ccef3fd448f86a2ff335d95cd4a2d906cd163f33e0f3b4ddbb26a35;
    0x1f5e024ab4d34c2a2a58f02f01e6fe37681b6b362f82d07c3caf32638a750dfb]);
  (62950766, words [
    0x28b1be1354e8f302910904a48dbf04b84d95331ab31c85bb82ff67410f85627a;
    0xdc2ca72fa1d8109b83492a6a48bf92fb21887d3b47c2533397379e0504becd45]);
  (62950767, words [
    0xad903aefcaf3f7eaceca8c6dd51a3a31cb429848e748640592f435012901687b;
    0x08fbcc6231bef3984a576ece0eeb14d6a459af151811f25a0d9dbbf813b6c7ec]);
  (65776940, words [
    0x5aa9c1e1837c4d87998b6fd1e488412f306c9b4d70f69605097fc51324d47c61;
    0xc9033da34009a22c57285df23ce5d8c9bc4c6444523a9d726878676ac13c22de]);
  (65776941, words [
    0xd922a84854ef8dd7beaa2c7296ea4ca38d80771bcc59a399d051089e99302e66;
    0x3b1b68156cb943dcc25794f35fada7aae2632252cfd199f11cf34828ee9a7ecc]);
  (65776942, words [
    0xec2d05b784e603b49d8c4b2628376f2ca88cfc00509441a7722dce2b60be4b80;
    0xef3bff58888ba938f3a2cea258de4fc0a1333bb34fed20fefdfc6c6bd173f821]);
  (65776943, words [
    0x617a3374f3c6aef313f31929056e02117bfd316b168b6f97658ce081eebe5a0d;
    0xe7f467bfcbf2c0fd2e67c860a6661bc2780e711011205ca3781bef51413b56b1])].
Check (eq_refl true <: done (epoch <- CalcEpoch (cfg_conflux []) 2 ;;
    size <- DatasetSize (fun _ => false) 0 (cfg_conflux []) epoch ;;
    octopus 100 keccak512 keccak256 (hex "4d99d0b41c7eb0dd1a801c35aae2df28ae6b53bc7743f0818a34b6ec97f5b4ae") 151182848800 size (look first_items))
  (same (hex "d45c965d3707e27a42995132637854234385cbf5626897259f1ee980554ddd5c")) = true).
(** octopus_test.go:24-28 *)
Definition second_items : list (N * list N) := [
  (4254520, words [
    0x3127f0112cb6942aeaedc785d6a1818fdca869919d19e20298e2009bf1d4f540;
    0x0a5197bef41563d1783c60938b1b7808ae42fc9fe951631b892ffb2a109136ef]);
  (4254521, words [
    0xafa2b39b5f40808da0174cfcd4d7d9e435057bc68e9a3233b891e5708cbef8be;
    0xf49a83fcc04a07fc8743539bdc11329a79b8eb28bb9af4326e792e6207b635a6]);
  (4254522, words [
    0x4a2370124d7d80187613d8180e070efbd2d51b4c34652064c176dab22b084638;
    0xaddd69f9997e4028f28181c9f72fde3898ef4ada0730cd7bd0e320f6be078705]);
  (4254523, words [
    0xd71964baa199453d05febaeed600b8ba34f156a605a1dbcabce9f8ccbc9cea1d;
    0x1b0a68fb96ed56458f8736f50de8a5f4ceb5d0ece4744dd48e68861b7f783bb0]);
  (5811624, words [
    0x491b22fdf8c483398e42898e199b5519324a314876504603ba74a8ffc812388c;
    0xf39326371c895b2a562735a7327c354ed465b1397c93b952139943d809139140]);
  (5811625, words [
    0x7f6c5c20048dc72d2cff7ded7a331d944601441b9e356363fc3e0f1f2cdeb231;
    0x95e4864dba90d07db7bfbd0c5b45502b7d29f414d691d46e4c092664a81589e9]);
  (5811626, words [
    0xa6df34079cfa43a6b84faac943a906cf3397723bb951f1ac61b7df173e7b388c;
    0x7056857e00ecd8ad3ef08b719afbb6c5d3fbd6d7975dbc49501af4d60c9a64c2]);
  (5811627, words [
    0xa1bed538effa42c9de074e9772d0105f059cbccb54d85fa1adc8ab26bf6544bf;
    0x2a3005cff59f1a39b430b90faac3cead278e54f4ff9ff09c7c34d4de9782b4fb]);
  (8327060, words [
    0x7563635e857385100fbf84223bf88678187a44d6cd3cfb2cdf185c6d123f0176;
    0x7f2f632d25cb1445b5ebab07ab5d43f77a78a34709a2be3b68988e0ad4938c79]);
  (8327061, words [
    0x161866468475db2e155eaecc36d535c4b75029aab813d08d809272fd65d19f5a;
    0x7be32c4ead19fcdd8a0858808948907ab58d87887da7f25e596268b5c9462406]);
  (8327062, words [
    0xcbba6a0b09f67c39d66ab13c0db0f3714ba44896951361bfa58905c20b005a09;
    0x30447391020991124d87bff089a75e769084077975daa639f9afe0f7e952d201]);
  (8327063, words [
    0xad799c971438d6c41a045ec7303889e423d1f125ca658805854dc6699d061271;
    0x9a1a455d65902f245ef918c309188c31e9fe468bc82dd4388716e4ed866d72ce]);
  (15794660, words [
    0x9da38cbfce6f144fa7d860756795826bba95c5a2354010317cd9d73b6241afaf;
    0xf02e05bdee45c90b05903bdd701d417522a6a3cf3fa252b06031396f491a7f61]);
  (15794661, words [
    0xce29be1786195b8dfa116b5c11ea6967449ed54dd9c2f3a13c970b6b512308d5;
    0x51578d6e9a448a0a4b5fc454018f27ca54c7e632c367f8d6a418e8117ae9dd38]);
  (15794662, words [
    0xf1985d7d179fe90194a629b7e0ab8926f9df8f57056aa2ec37d4adda85b9bc76;
    0x4eb397a911b5431432d0614b7e3e0db6499a65fbc8443026e1fe962ec4a2ed24]);
  (15794663, words [
    0xa77e8cae1cf89fe21e1cef7d5110cef3601927692ca2a6f07bc3c6580f08a542;
    0x90aa1dfd413060e224110a3a42f080fbe177b530d62a45e7e4fe55d3f2f06658]);
  (20173436, words [
    0x8da68d10f3245c2997192519573e267a31fe7042b171370a19f3525205e0470c;
    0x3199882ecb0d8b04c6a9b0d22f991b2b3bbe8c25253495b4d408a47eeaa189b6]);
  (20173437, words [
    0xa1588383d16d51925a7cc73ea2cebbfd76d0c106e939bb77bbea6cbc1bda6c99;
    0xb8f59d4449b7cf5bf2b3bd48e9653c599e17123849765065ead64b03291372c7]);
  (20173438, words [
    0x142f82586112774ff311f7e4aa841ba5fdba0e5778d235ee7738651ce6652575;
    0xed94a4336c2f3d812806464d7eefb4f0d92c82f7ed1d51d5602413f833d66c49]);
  (20173439, words [
    0xe90efdccf0f75531c9bcf5542cc304083407a2d78b15d05fe81ff050090e52f1;
    0xb8036b81c079128fd5cdf009df3cf562ebe18880717061153653725bf4710e02]);
  (27525196, words [
    0x9374c81e3a7fc7413a9e9308ccc6cbe6f7948eb439b14ef5507cabeba5d16128;
    0xaff9e58cfa2ad591a15745b7c2e700c22f5f3982fdc40d5f9994ebadfbcd5c42]);
  (27525197, words [
    0x43fd7994c6ead568a3c7d08a9c7f59b7f503b27e9b4d82597933f070712a133d;
    0x09efa117a6f5f903eded4b36c0a40ac9719a11dc8f5cccbb52333c68a77fb4a4]);
  (27525198, words [
    0x89a9f4e9fcf28488ceca50a1844dd84cea1f17e242a44d8412c69cea5f8cdcb9;
    0x0f51597063e5ee3ceda9acb9822010134eeb3de1ab187f93ece7afe02c3af81f]);
  (27525199, words [
    0x6f1798caa2f9dece17b27314e37a21cc56943ec6c80fa1280b4dd314175ea012;
    0x33fae56306dc6b267e22179468b2df61f5cc120477e63807a226032bbad9df45]);
  (28302580, words [
    0x50d219debbc90400a3fc724dcc8b01e0c99cb02fcb745ac8abbd8eab3934ac52;
    0x4895f93618189974897bc73cfe80d469a3ac3bd19e4885f6d37cc8c52ac52172]);
  (28302581, words [
    0x46a3ccac55a5eb02d436f351c6ee2e60314e94ed5ac19fc8d6d87c271202b241;
    0x14d20bfc90e8373133c9c77e5ac9fbd4597a262c903f600ce413063277d79da5]);
  (28302582, words [
    0x236af5c33c0621db8256b71e9663aad422fff0a62410e1e456cea8bd15b10e2d;
    0x52a8c71f17152f9e2ccaf2bdd184a03be0e1a4f19f6f2d614b33bdd0f115fd9f]);
  (28302583, words [
    0x81a853e7a5908c07cf59d38c384c255a4053460fa0c30d7cdc46c8b5ae68b30c;
    0x307c4f458cf0c9c4a4fce990aad7d6287e47ae14b15cf7895142efe699c3e1ef]);
  (30447344, words [
    0xd46b1325ef1c846a162d136b50c7027062f103c6ee962c28bca8927b3b3b8213;
    0x2e8e03c4b2af4abdc6e0d81291e5ecd80967a93fefaa60ee40d22ad18bbbaa6f]);
  (30447345, words [
    0x49041b38cfce7842ad26830d0a470bb9fb84f3acf6d5a205bc0d9e9a9ccd28be;
    0xc9a4dbff7751258c5369b079a0c5a9e5a0c575c9cc978040893363304826f914]);
  (30447346, words [
    0xe0c9245d05a92384f095dfb48be89df8a9c3dc58ca9fa0dc83bbf3c82efbf989;
    0x11f20a77e0e9174f001fe42acb964d0dd9e9e2ff64f72d8cbadc97eac50ec3fc]);
  (30447347, words [
    0x22056cc51fa12599984c1f8cc2097d73f9de1a2681f2ee87acf8ed34b823c57e;
    0xce3f0ca54ba06ace879a1b61ed4bd3e8f15414eeafab58f884f5b5778388b7dd]);
  (32147084, words [
    0x049fadfa3921a7a40a2c8ed3c0cc9423cfbc552cf2265f015fa800864099f710;
    0x4364778316108006f809e75558ce7182211d1679306705ffcc538811a7d4f267]);
  (32147085, words [
    0x86b24669a9121b7ca20bbcf885535751432945425c663bb80acf909fa4df2702;
    0xeecb8735fedc757f708bd255caf0c50c8a9579ca5e8b0a8e238f73ac18c40dd1]);
  (32147086, words [
    0x2892249f7f387917f7937d1fc292bd56629e55656911e4c2b8e8bb2df257f6df;
    0xa9a2ac9151366631529e9f5111d1c618fcfdc8d072a5285fe48a6c27295cb7e5]);
  (32147087, words [
    0x9f005fe0cd1f1443ac304c502e21e63041267dc88699259bedfc902517f79da5;
    0x51b09f79813cd12ba0ef1ffea18adc908ec55bca0640f41798e35bb29ad7d048]);
  (32853628, words [
    0x0f0e436e332575e616fbabfd13f506e026ee86010a16ac440eae4dace2364fca;
    0x50b2c939abe9abdc07f054e993f9faa234c0f0f9b0da96d961f0597df97d0ed4]);
  (32853629, words [
    0xa8cef2f70473a0c004e9b82418dbc61a747e15379d68554d266c6d1d654e0be2;
    0x166006f6c3f084475cad051bedb6bb642cac2097004b35b61857e206b5705aac]);
  (32853630, words [
    0x68190e4292dcf66a61204caf587a2e81ab6e46cc83538bd7ee7600656c73a423;
    0xfe6028d99b5d00d496917001876804d601a48c79eeb3c529478526e79d9377b0]);
  (32853631, words [
    0x9b9a828f2b9eed6365ebc66da5a7f086507b8872fb0f09cc63a641a94ad4544b;
    0x7e337fb74babbfa40feba8a67e38751c957f110139d92792646f633481548e94]);
  (33959692, words [
    0x48231edcdf92e98600413c9da2b30cad7721ec5e5c19684a26620628dcfcec37;
    0xf71c54ec5ee670612cb188d68bf5a358b0fc1640f9cd549b512b2b877bb9f1db]);
  (33959693, words [
    0xb591987780cec100ccf0f33b570a743abfa219c37b09256f16ef26a1747a6ecd;
    0x2ac347d906e5f89ee48927e2ecb17cdf5f7318cd034b3a05fd0e811af90ad543]);
  (33959694, words [
    0x249784a6e0c2e82b3ba7d6539ead7de65bd4691e083bbc7b5edc8283e2059873;
    0x120f3d8780c928bf9dcbb8e13b0e3bae4a8840e2ab6e9a117ebc326ae681b481]);
  (33959695, words [
    0xea01976810ca9dfecd2abfd2d04f7492a2b0853ddb0743fbfa9884904fd43ddd;
    0xfbf54520e6bdd60994088d595da17331118babcbe0e6a1b61599005cf57a1999]);
  (37199084, words [
    0xa698f614ca3b1fd032432232c5dd7b641631c335ab8424c29e8689ad381688da;
    0x3b7cf8e9d53385c971a9eae3480c803320a5ee4085385e312750ca3bae591b67]);
  (37199085, words [
    0xf2df04ae60d5dbe1fd002fcaa3ba1fe2dfcc6549a790d8f225a01344010ee0c5;
    0x2276da9ef96f84e3fc4a64cb3ec3cb7230b08a7e8b8cb9cc6ea2fbe316eedf62]);
  (37199086, words [
    0x5d9cb53db89029e3de3d965216e83e320538a6dfbab79e1f64bfbd0630977a4b;
    0x7665a31130f134426ea4369fe8bee1d0162d791aaafec930177cacc7ca9a41fc]);
  (37199087, words [
    0x2d41e51b00de30b720713a134cbc9befc32afd4e5f62618c26ff68c40393bc80;
    0x99404be1b8f912d090c4efe8b3e08974c5f6ae0c9d594bf80796b86b992ca73e]);
  (37342484, words [
    0x551f1ce3ea9c763bd9a69750b14501780824ee75de5a5d5a04e8db167ae22073;
    0x735e52fd4859c39f8e2e331fff2a8b09af652e0301b9c84face9ad47e381b9c0]);
  (37342485, words [
    0xb2ef85c98895e0cdd2ac3180e982e372f048ec0de4fc0638b246cf66befa088f;
    0x96a16db0535715341712b094b7fc92d84de36b5bc7e87899a0fab6bbc2012597]);
  (37342486, words [
    0xf27f3f77013240deb42c3363adb5c58c45be348e5106c3734e1ca1e04f2cba08;
    0x9781567d307e67873a711a50cebd552e00a32e609ff25c88ec581476829cf598]);
  (37342487, words [
    0xc365b780ec9634d5cb3dff50f75f0b2d0cf4003df83f31b917027d2bd6b1ba33;
    0xf8fab21de25950a1fcb440df16bc1625e9ac92291edacc7f8b10b55f2ccba40e]);
  (37651900, words [
    0xe2a8b11951c9c9c40cd1b8fbfa3b09d1df86a8dab514d12567c7c0539cb0a8ad;
    0x89259a4ef31242f39ab856ab49e3ce242fbc4153472fb94e83af70069059aba9]);
  (37651901, words [
    0x5abe1556d90572776d2bcc8613491180c747f66e5532ee807580aa70b909cd8b;
    0xc38ae1a642180bbaf311ce87fa84ed6cef75cec922ded985405ef4ecedb9fccd]);
  (37651902, words [
    0xce1dd9b14fc40ff6c283ac788a2b95a782502955b768e71b0f318534cbeda33b;
    0x17ade962ef544f723fd493a131ecd3ff8c2b5b4085948cd17c101c31d195da2f]);
  (37651903, words [
    0xfde3c9ca94e234614953dca617a681057142ed4830c1a8ac6eedfd9e2667ddee;
    0xdd0ba31c7f770122bc386defb7a2d8ae07dec1b86432cb9bf89be9029fa61d65]);
  (37695448, words [
    0xf26307ee52d2c4f72e0969d2f3c5045dd40279616f9e65647e44e58256bf73e4;
    0xd5e4b5f2bd573f88a4c4052c2b9bf24536ddcae9b336377f96ef1e952d15ec36]);
  (37695449, words [
    0xf18d62c177f74641aada9d7b666b6b0b6606b8cd78dc3caa45fe599d885c48d0;
    0x0467881d8c0a86a2a5603e4d9fa070b1be5508f95a773cff159d3422268034dd]);
  (37695450, words [
    0x9c771d5958aac39b99229565885370bdf2d7e3b25f88e284b137fa2402d7f638;
    0xa658ac0b1c684a3959328c3d9a563872ab5aafaa07f88e469f6cf17db5840121]);
  (37695451, words [
    0x26366f23a370136f179a963463e5b72b84582b60fd62bab6a92d26fd25d8e6fe;
    0x3df6220fe2d0506e2bdbe489230e9064f40621595245c1d13e10f4e5598b727c]);
  (39444508, words [
    0xf36b613f7e72dfc2853e1eb1c49d445eb9b547402b92066755ce57de9817bdb6;
    0xaa924765a66b81f6a599439671785b9f8042c52e494daed7688a5ec96509d7db]);
  (39444509, words [
    0x0876d1a529c3cb99342c4cc8b37151bf94d94608c9a876c7d7078317889b2546;
    0xec409f5d4b1eea2bb305337cfcf619cdbb4b305c809d45ee24d04e2be88f257e]);
  (39444510, words [
    0x8658b466aaa4ff67610b0d8dba9526700fc5024971209da880ad1093f12a0b77;
    0xb573abdb9767dd28b25c210157aabbe3e90c75df3aa51b30dc35d446b8cc3b3f]);
  (39444511, words [
    0x90677705261350b75723b2deb0d492f8a743e484bd4a363f3acd77abcdfb6662;
    0xdf2085a2a2d2a4b6334b8ed05fe8854be3e0895257e4c13eaea42943cea3e8c9]);
  (46790320, words [
    0xe068047a0617105905887b0164b57c1f6ba65f0176b774694d3ae291e2e47b31;
    0x561811441de6091a1c2b4688ac155bcc751dde790750baf412819c374a363d9e]);
  (46790321, words [
    0xcea710572ee1b70da9d10bffbf8bb13b7dc3babd86966706f067c3310182dbd2;
    0x8a00edb7ad93119e70727b72f89739365499d190f54845c75f942f8b6e036279]);
  (46790322, words [
    0xab974ec47e25cad5396efba291ad2e22e2f92dedbeef50947dc9736afe8bb2fa;
    0x8f6ea9dfa61f7d33bbb14944149f9fe95aa968d1edebfa0cfd0ae8e91086dc13]);
  (46790323, words [
    0x3c0725792fd71489818c3a38a68078805a3a9ccb5562f3b6fcd2bc2f2d5933fd;
    0xd008d499ef019932275c0bbef32fb93ed230ef638c43f270025d4492d17bf341]);
  (47013400, words [
    0x739b475e006ce9f6a2da67479bbd99be61db830d561eb44210cadedccfc462c2;
    0x80794439a29d74f95ef14813918cf928197313778f8bc04a28c6a9be5d82253a]);
  (47013401, words [
    0xa31bc3c1121b91b76f2456e6a25b08ada30bd4bac631e68b23be36fb9322bea6;
    0x536c80545c3ec6e7c60162bc92cdd709cc489df7bbe33531a683250468da650e]);
  (47013402, words [
    0x7cab1183ece307caf26c9dcc5036a46eded3fbbda08735226dc9d13882aa35e7;
    0xb0cfce4cb103ab5f87d23de1d5c8da95ebbe4a9801494186c2ea6a9b83d14af4]);
  (47013403, words [
    0xe593f7a30182c4707152526b66f18ad56b30c55d59863cd8bb0200178c20d696;
    0x8fc3701d213e0bee380b027a86ca024b0ecc0ada8ea501ebc939dd5263bf620d]);
  (53848780, words [
    0xd73b2d0ea7feb43a06a8629cc95d75eeaaa683cb74a1c38089f8a98c4e1c5825;
    0xffedb7d2cb7123da9e2946db3c9868412607507b2bed7b322d92b9784c92c319]);
  (53848781, words [
    0x863a765d30301b830409d9b5d03bb5893fd1c5bbeb01bc390136fc40a715d8ef;
    0xaa120b090b069b6f1f349960e95327c20dc4dc2c45370fe7ca58e2d94769ddb2]);
  (53848782, words [
    0xe96c10c7cd6bd45fa8775c229ece98752d6a22d5efaecc21f8b0c609c8d37b7b;
    0x3d08e3e5748a61e3a758bc0a4019f5ace7f679198ee3bce75ba50d3007b8315d]);
  (53848783, words [
    0x7bbb888f6930607fbfa7a4b2055d489b3d58ecfa10d1730369dfd27ac45e539b;
    0x9b64da797a9e518acaff353cdc6109d11a3a896acc8befc6dae32c6081394ba4]);
  (60365260, words [
    0xa17e77ad32fc7adfb373e9732a975e3e8501dbd968ef608732747ac363322d23;
    0x62188f725851d0994a4402c5c6f88f18d848b9a5b027ed64e2de542abb1b7730]);
  (60365261, words [
    0x05b11e3e4f73d90b9a035fe4d2a87249861e134ec580f64f02078a0de8314a2f;
    0x8a075a4d5d7b1f94f2b0274ff84c05a075a1ddc5dac2fea9a51d799902b51db2]);
  (60365262, words [
    0x33d47b591c795a67abb730d5ab6be8bf4e73924ff938d75f7827d62fef8ba96e;
    0x689ab17a5b977a1954fd581398689266d904ae1eecbe27bc187a499b887ee056]);
  (60365263, words [
    0x7bd026189557d6315a8ca2c0ce56d7740c35581cf33d6eda6063c0eadaa813f3;
    0xd70c7db4b183c204f426bdced26d2aae19d300db1aa316bdfdbd8c863a6813d8]);
  (61209204, words [
    0x290ebad5deb5750bf733c4acb0fa30faf27c9c36230a2f0a279687292e46a6da;
    0xed08b7884d460b3c8d8a0f48bea594c53b50474d4c970398b3fd0bc7558cce3a]);
  (61209205, words [
    0x783507167f57b88cf98bd0a3b6d5ee027dc6f53419814489d5f479dd829477c1;
    0x507bdfa9cf6369dcdc00bdc76ebd55dacbe630902b6b0926911ee3ff28be46aa]);
  (61209206, words [
    0x158a4e0034b99275895f816f9c70b90b2ffddca74a45c427870ae89c94f68578;
    0xeb6dcc40a7ca4eb248bb3f78a6a00941351d77a043e5912bd56d03fa367519d9]);
  (61209207, words [
    0x3c2f24d08ac12df55cfa4761713acd4c791d64f55127d1f6da853b40b3b81e45;
    0x3bd515e7d59412519e07a7a134049bb4bf5e12c0422439873d8fa4b60e88c6e1]);
  (62791216, words [
    0xa28c0d14ad6a704e1adf04489da5dd72f3504d01be0c8ca8f3c8d73de605e95a;
    0x22da8ced9520b9c9b97d09349d06137083e988dc33d0da752a22f966a965d87b]);
  (62791217, words [
    0x408ab231013123c95c633609f4ff0040c4fd2a10f97dca985b99f9e479b79ca6;
    0x7b7b94ab01ef8b0fdd62bcc81f2edd2d070308a5c0d3b2dcca69c924ddffd6ed]);
  (62791218, words [
    0x8a60a10998a3d1b17f47a24d248ab559be74eb6ee50ff653e24ca99ace7f7323;
    0xfc72698b2d9c6ab2434ccbe7ccef91133df22a70272db56adb31c60034346c9b]);
  (62791219, words [
    0x195be10ffae4566dc1fabdbb2332e3bacc43a0e8fb1799a311f468a9c5dec886;
    0x5e89405ed7899b7a8cda1d2a96072f2b466d3bd907261033512ebc71758f155c]);
  (63095052, words [
    0x783d641d3d575df8f5df78ac040b0437ca7ddfb7f242a6bf232ce1163829beb5;
    0x48d42ee200508adec6bc960d030614ae38a010659f01f04cb1e2ce9967d5860f]);
  (63095053, words [
    0xed52063658fa05ad1c838a71c9cdff42fb02a30c566c2e03c98969d70b12c620;
    0x9e04b0c7a98033a27e76a1496ba07b98dfc1c257024aefa1671383d20c2584d8]);
  (63095054, words [
    0x31e3ffed7f51ad5a8944c89f99fa41600b4d89a0e9250c8a96fd29bb34c6c077;
    0x107d67f13b6e16fe19bceb30bd3ef30cc8e87a77bb3b2f9b02f85ec24269b200]);
  (63095055, words [
    0x863a84ba7ba2fb0017ef8786474be06cdb6fc1984e92aefcca67c30c5a6f43bf;
    0xed0ac7170c43df66671d563f8202286de350a9c5114e0ea2a8d10458cad2d77b]);
  (63698284, words [
    0xc03001a888f37d209c64e9e561cf8b2e248fbf3f584b2dd1ce64b50de872a07a;
    0x167ccf738a28c94aa3dff0a72800bf3561e8eae3fc6852b93df0a42fa54d1d23]);
  (63698285, words [
    0x93a4f00a573e6c9f4889bfca79313ffe5450f95fac70a92d06779a14b813a706;
    0xee688949fd86a491ce1cf0f53f50671e583ec8bdd785a767a9d6a5dbb5ab3e44]);
  (63698286, words [
    0xff0e9f67d8475cf870bce37424ec4f7003226d40fbf2874664708e101c1f7ba9;
    0xfdf3e2b3acf28800550a170098e4424dea97b7fa94e6a63f019bb58ac65ad241]);
  (63698287, words [
    0x02d08096e7da27dedef2e68a673b0ecd412b879f4b26d9e85e55536b53277888;
    0x7a00a5d83aae4aad70c25a8f69e2d8b8d0e5eb33cefac1f033706025c178a124]);
  (67779096, words [
    0xb03383f6fd1961921f4abb98b3c25d75a15e0c20a05b9dd1b9b2f43b851ed715;
    0xdea588ba55b4d40599769e10d0b9f008ac7a618792c106d98c625bb63c978cd5]);
  (67779097, words [
    0xdb50e2a5ae3c2b586b0530fb20223025e834987e62aea0017eba7fdb72f04ed8;
    0x4851c5870543639edd124744a8542297419ff32618665b926a928b789bc8967e]);
  (67779098, words [
    0xc8832cbe92ec70990aeb93d2fa88802c93da95ba3a00cd44bff3d89c5f3da730;
    0x83de64dcdc6f93f94c643f93469b00d796124eb18aaea06fe1f03aecdd9054b5]);
  (67779099, words [
    0x93a252ab97fe3cc7e8c1370b9e9b7ee82890b6d5014fbec9eceae3a401ae558a;
    0xd3c365bfddf6afae779090926cb62b96d13585bcbe4f7e7b3ef332f3a0484abd]);
  (69821272, words [
    0x7c872cdd9f0ea71731c226d8ea7072a8651a6a7ec92f03ea9bbc6f05ef6a29f2;
    0x13be693fc09b1fd4490bd5a91517d7d5132696ac55a9add9beaf94acd33e06c5]);
  (69821273, words [
    0x81ab33475605a534519ea4c024cc2e94f5f17da75ed24318bc462e62aaee9e6c;
    0xd5a90bfa53bcca30e0bf6f2156f12db1f78002c5f77abaa1e731d67432a58b43]);
  (69821274, words [
    0xa317e2f3781939589956879b185bc0149b198d9a50d5b43623a9659d3f4584b5;
    0x1b06ce958d3e0fa02ed622c3ad6700402c177484c1e47780c16acea4d3e3363f]);
  (69821275, words [
    0x2d2e8ddca0a53fed9a662b0773c49186e527b641443319eea882890641ad8f18;
    0xc8eaa15557e762aed3c74ffa3e276bcd0b607f5fca233b8b4bfe96ba5034ee61]);
  (77902296, words [
    0x6e2250cd22c945a92c307d51745dcc55a4463467553011853952ea9bb697b103;
    0x0215e72090f5ceb92a9302b426e87fa06c77eeb30dadc86396ab17116facfdea]);
  (77902297, words [
    0x620a4cc751d938b9409e6cea001f67c313e43c4147411c777e355dcc12e394b6;
    0x7a576dffbcdc31b65ffaa3cc16c273aaea656929361a85cc68ff3e3ae4ce0573]);
  (77902298, words [
    0x94a59e19e8e5eb44b3883bbc37f32ac2558203afa75cf4606802690a3968a825;
    0xb58128e45f97ef052fdc6cf97ec8109b849e7b9e354b7f47c909d8427165af03]);
  (77902299, words [
    0x91ed7c7262a775a42feb50f6ca55ba0f638a950192346269c9a0fc0ec0035c6c;
    0x3b3db412c0f8d6a4b8abdbcd93cfbcb3b7f471b682af06d794b58f5f7392a8a3]);
  (79665404, words [
    0x8a624c5d5aa17f99d4a327c60ed7c8ce692416bc4b28669b8ebf641078369c7b;
    0xa7e06773ead7e87b839b72e4fa9eb392cc003cafb95fc2bade5dbe94b59d7d37]);
  (79665405, words [
    0x02913aae4a7de2f7e13c6c43a2e118179fa7e327fa3f2d9c0a3028e73e6d5643;
    0xcb3b1d9965d4cb924d29cae10c2d029cf8bb470f29aab2b3bd891d86e68fb984]);
  (79665406, words [
    0xa5ec8387593036df6bdff6e3312042a8489d327c6d39b0e19fa762d7f6f20dbb;
    0x367b364245c1500271c433955c275f8456c45e0408d85851a00e52234352019c]);
  (79665407, words [
    0x1e54fb8c995c57c7d79c03a6a69e7faaecf413070b5b1e633ba6bc6196487b90;
    0x950231a71e0d04a80eba1541a598116dfab3035e3473fd556ec2bd550a0af205]);
  (80602328, words [
    0x16fdcfc141da63ffb8711262d96d28a1d45fd505e34f475c448f4ccf138e370b;
    0x35b801ae0981905022b89f7d0e19ebe2998ee5493bebb7eeefe2b1946028f47d]);
  (80602329, words [
    0x6b31c51e8f4252edc3bd5914ee1427500e8d153a80a8f2616a4b9029bc47282c;
    0x3896ee08db812814783fb2468c626eeddf4dc7cad325088567e2d307ed871c82]);
  (80602330, words [
    0xa9512104de39c1dea18b69341209f1ffddc26a4deb81f4757bad46b61beb2141;
    0x7097fec02c56a287a888967a2e43c9657838d15bc90b1ff95285ab9efed59da2]);
  (80602331, words [
    0xc841d7820d029bef9de3eee8819161a32b307fd6ea1df7d38e5d801932c28b94;
    0x1ee8403ecb55a2177366cb604cbd088e421595e3ce09b5772618d3eccc3e15a2]);
  (81799984, words [
    0xf018cc94bd18d707cbe505a4c73028c784f7e7318c8602643a717d4f440386c9;
    0x1e1e45f4da260110ed69b0b5e4c0c870c0265c5cfefea03c5415424e7e22afca]);
  (81799985, words [
    0x1ce9505a0f4bc404e6b2f3903e5cf38054d5261bcfb834bb1178d9ee20ecb2bc;
    0xf1c145c0d76724ca54b0113a726f785988774df54923f41d6690a9f61e584386]);
  (81799986, words [
    0x6ff78d7da0c25eb292e616e3cc3ab6dc82de9a3d5988c04b0a3454336d0a4d33;
    0x6413b1fa7902938d3dc9184e7bc9cd48821759cf867cb337a751bd721f78bfc8]);
  (81799987, words [
    0x4264bb2c295f2abba938bc1579fe47f34ed41048e0371f88342bf395f4db7ac1;
    0x90f6cae3b0a2c7979f14ef7bec964e0f71cad3e0d270f1aff11fa6a213851846]);
  (84160844, words [
    0x30f0434d7b8476b2d2bc601738d58bb313b80b2cc4af821c6a538c71a0110785;
    0xc504473774a45012e364f07f5cfe2b6fe045118de1c81fc4dd45e0b443329e01]);
  (84160845, words [
    0xb25f7669cfad904d5aedc932a564bf1b362888206d52f1b67867bd88f8dfad17;
    0xec03e1bdfa67e748649128ca3456526c409214675e1a6c34124d6ac67768b721]);
  (84160846, words [
    0x83276cdb6ad24078b4e3a73f280ed58f2f051e50bf0c003f4b159a7290562991;
    0x2a4fe9fd319fc62d3dbce46421ae1c50b03eb7a218a6e0f10f6074b98c5a14dd]);
  (84160847, words [
    0x0bcd22fad19e47ec76016aa81e43144d124b85881e8b17982f953bea5b637016;
    0x9f2607647d01183c222701c0485ff8d16aa62ba8e84b2c66d8e21c9159713436]);
  (88907180, words [
    0x41eaed43017f2525e235758776d2f744614aafd12cbbbe7e3e3cc0db43c57aab;
    0x41c78134daf8256810562e59b8b332367974a3f99d70fe3220972819cf4e7ce4]);
  (88907181, words [
    0xa13eb6f6d2105f5e403f00d778faecd93cffd7484d65a5e534f60c63b646e5c5;
    0x67cf465a58deee46835c4415455cc48036c59dec439937bfdbca817283f1ccee]);
  (88907182, words [
    0x24b3521d0ed66cfc7aa59f678f96501a73372b86bc0a008b07e09ba11f153713;
    0x5f474ed185d2c01d5673151ca9789dc4ee236abdf20ff84c3b2e6315e3298abc]);
  (88907183, words [
    0x49c1de49afba0beb334ca12dfe7112c6c579f9bad3868f14ad594ddde9bcd495;
    0x1d100b6cb3d9c73ae1a6dff27f0da124e06e8756acc09e84b8df6ee641bfa289])].
Check (eq_refl true <: done (epoch <- CalcEpoch (cfg_conflux []) 45749306 ;;
    size <- DatasetSize (fun _ => false) 0 (cfg_conflux []) epoch ;;
    octopus 100 keccak512 keccak256 (hex "2115dd73ee8e3e15e65d218eedd6846514ac782b636bc5943fbe4f980e2d395b") 15443884760380287055 size (look second_items))
  (same (hex "00000001b739e70d59c01c97652fa4c9540b1028cee284a72cb7c13bcab7536f")) = true).
