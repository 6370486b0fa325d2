(** A test vector of firopow/firopow_test.go, replayed through the model.
    The dataset items (and the L1 cache) that the run reads are listed below; they were computed
    outside Coq by a separate implementation, since building the cache of 16 MB and more on
    lists is out of reach.  An item that is not listed panics, so the check also shows that
    the model reads no others.  Checked with the virtual machine when this file is
    compiled; no proof terms are left behind. *)
From Coq Require Import NArith ZArith List Bool.
From Coq Require String.
From Verif Require Import Base CryptoModel Hashes DagModel ProgpowModel.
Import ListNotations.
Import String.StringSyntax.
Open Scope string_scope.
Open Scope list_scope.
Open Scope N_scope.

(** Eight words of 32 bits, written as one number. *)
Definition words (rows : list N) : list N :=
  flat_map (fun x => map (fun i => N.shiftr x (32 * (7 - N.of_nat i)) mod 2 ^ 32) (seq 0 8)) rows.
Definition same (a b : list N) : bool := if list_eq_dec N.eq_dec a b then true else false.
Definition done {A} (r : outcome A) (p : A -> bool) : bool := match r with Done x => p x | _ => false end.
(** An index that is not listed panics. *)
Definition look (items : list (N * list N)) (index : N) : outcome (list N) :=
  match find (fun p => fst p =? index) items with Some p => Done (snd p) | None => Panic end.

(** firopow_test.go:53-59 *)
Definition test_items : list (N * list N) := [
  (212980, words [
    0x3c85d499544d33201a4d30509900b3004283fece385e24c19446b1b809c72aab;
    0x4099495b13c585cecd75f25bf02c2643fa7c69f9d294152fc715409155b2284d;
    0x6911e5182483807cd7a99da101446aa45c4a9d75ca9fead6eb87352b6cee795b;
    0x703ba1e2ba5299406899fcbea123e1639417af307563185a27ee674893114c62;
    0x5a8315237e43a5d389e05c3c5f720719116f8f02185ee77f52c4908fc532e368;
    0x2735dce7886324e9a0a370dc07012c0ecdbad5be03f14bae48ad5b475ccdad9a;
    0xa2b9c9c003ee809366f09dcc48b0cd5cb69f15c60cb3e32bd748442addff06e0;
    0x45457a87057fa0b23d19e6a76c8389664c248b0851ba79666804098303bcc813]);
  (217044, words [
    0x3f090727d5622ceed5ceb1ed5d7febaae7ae567e36c03debbf0bb8841981d5df;
    0x2bd4aa280c467b90d4cc7639ceab7be7d9da399c5c84b06b67b683c5e6994c93;
    0xeb8efe31103765a617ce8cfda30f2642a4bbbd8a99b4b511a29800ed009b10b5;
    0x1590ad81ff96d60cdd374489de3db69df9904723b6d4e7b12f47c69a52349230;
    0x3943ba59624df607d414315e9bb8242f5947b3de2d71043039a89e9181b1db26;
    0xe6cc8a5d7d4898a531b7c877d663698ea5f045b48b07c28cd5fae321db968984;
    0x9845a74feaf8370ff9aeff8f2b96c6132b4638d9100348e6956fdd3b150039bc;
    0xba17496c7ccbd3ad61ebe0a719b87398fac89492c66d9261e5c355f15b3e5cca]);
  (253074, words [
    0x215314c05bd806bdf7d586f24365c3d4e8cd10a7596304d6c5f698a61d643bc6;
    0x97581b6bf4533288d213bf8a8edbb650c8500795452e187e152097c514d13ca0;
    0x91206bb3f2f82451f70cde6fffc7ecc732a33addd0ddceaf3e9716bc672fb715;
    0xe2ec73258d6865631598daf202220d231e50d7c82c276812b2b47edf789c4254;
    0xdaa4555ff3c2d05200ac59e7f9c2378484c0542693848358ea935bdfb1078d8a;
    0x89e142ca80e75c146d7f3bef07d990311f757489cfbb88713341798d6dfec5ab;
    0x4acfa4164c80918f463a69ef2593ce443e42db9b2535b2444296fdb1c088079e;
    0x343f23e9e9f36121d11389183c7b2948e63874efeafb4a89b82d5902df5bec99]);
  (269254, words [
    0x786692b132d687e4db9261aa8f555b3039b1842e28bd2141fe4c13e04262e2c4;
    0xa6bd3a353503caf076e333e5e2e1cdd5cca4ee675b69d9abadbcf0e0bd234984;
    0xa30370f01c6d250a393e32102d4035a302b76928d82eccf73cf175ea8f91809e;
    0x790e9a27228aa7a1987dc5de4e7002a6aa442d3805d3b6b55ab2eeac4b695701;
    0xd3da2a1525de2f8809c592da300d1077c4e7e511337cb155049d4ad0ffe0167d;
    0xebbcd53930777d92edaabf9b444f8c4634e274da70e50ef4c64e99d7a5043d09;
    0xb0855dac98abb6274433a8236a5143594ef168139519fbe65b820c06381f80c8;
    0xb67567c27d03dd016ebeded1a65fd9ad75b85b7279a7e6c3a3e0264309507153]);
  (495233, words [
    0x7c0347e4b9daafdd95c7606a18514790abe7911c808f2bd332d875e82b1c8ecc;
    0x4ea0279c0997e08ea81a8519ec364ffa00b1c0fb2f910db04c823badfc4dfe14;
    0x893499e978fb4caeff243d326a4d5240bea4d944955479daab362cf718b8773d;
    0x0a0215d9bcaca8d6f91475d56134df4dfdd0708f73129bc7e1f09bd0424b3281;
    0x8b3143c273e55252511cd4ebf4d43b197eccd6c0d51d97104a401d32afbe31ff;
    0x2cf99a1b132aae7749155b842e3349b895a7dc89d4db3f00fd5998d793662250;
    0x4a78eb55a2cad6d696d01de8c77eea2cf07457a2511468bf3ca631a07770380c;
    0x25a4d180a17a3bd905ca3f5d935ec645c3878536c9633038304f99d420eb07d7]);
  (521869, words [
    0xc6bec7055bff8853d2fe7c50cfe379be57ed4237fbc2b66c017ce132892c37a9;
    0x767beab5931fc33dc55f882ba311e81dbef13bde0a69910cf2202fc500a5b2fe;
    0x941bbe1949e92c18304115d9e0e5e097868f87f72ae70901882d5760f4cc8749;
    0x104dcff2b02b9ca83a592507628316344f568eba4f45f6af286b1252681feb85;
    0x705516b6725e9843a499ce007083537373d4390da3998b8fd374e40cb3dcef5d;
    0xfa57ea07cdd8ee7ab205ffa4f4907b724900f077533f3062b7b1eae9e4df0240;
    0x0687a9e764e1245af18fbc99b055fff3b61c8d56e99fa2fc8224a620e76b5f26;
    0x885e162306e10b455b9a8edbc9274c6beacc21fd7b64bee296432b292e32fa7e]);
  (522249, words [
    0x9bcc1cb067341e7e39b546690bf0c7384099120629bbdd383e8aa25b99084d68;
    0x871dfc5a4683c64a4a648becd49e7084252046b25f5d31c531fe4601c6c491e5;
    0xb12c224b1668179e40b190ac8401ed5a18815f83a82c9f7cf67fa669e4178473;
    0x3b447d557d37f0d1b269165ac55d13020c7839403c25c33a70c3de9fe45af3c5;
    0x9444a67582eb167d6d5c6b920b3a1c474f21af5558d806707f799d0a28400bb8;
    0x9f9f50c4958fb742dd666a047df000bb3cc8cacd62c58767bb5db6a4e529f7b7;
    0xe1b0e6447d80f4aa02b46045b54eaea7889018a651dd8a3c34dcdd4cd081ee73;
    0xabfa19e00ec5ced8bc1641d5b65541f79fe6feb4e7e6eeb3e18b2d0fbdb0cf4d]);
  (538610, words [
    0x98402df1704f6d65a25f65e8ea9c50cdcbdd4206b9080f815091052e6b1ea8ec;
    0xdd445663172448f2d084c9d0d67792e3c9963cdbd7cdfd74dc4ce9626b02d6f7;
    0x299661c3552762db4cb4016fe2c9a115cec53cf434ef3265bf9abdb975264a51;
    0x3cc74e546cd43d390a6fc8384ea6fc71b46dca9f191be74f0f5f79b2e42a6944;
    0xca4a8474c05e20172e2093b586d848b1421ef82be72546a847de39146320f40c;
    0xa5a9e76ccb287b2ef550cc7066c00ad866bcd0eb717a780a679871ea50c17ccc;
    0x021947f837e4392702fe711d0a924e39db7416d504534c9b43ebc25a493493ca;
    0x1e2abecc441993e72a5d7a6f4eebf15b4de9a9afbd931fde5ac004197b38eb62]);
  (608084, words [
    0x76441ef0263ff4af3e6e1b53b262fbadc3562a6ed61c2ecc6336d066c2dc9ffe;
    0xdd7d93fd2a9bb0bf28b720e608cabb666e220e057b32126f1d05805fb592abcf;
    0x55eb163f800442ebeb62f04571d4c1d2271266ed706251c0a702233e65b91c91;
    0x7e3d15febf5522fbfabb0002cc66ac9df90623d18a3cea4a299d2df6ed9156d1;
    0x5601c699f2e6fe82039fb0d7608cd52ccab5d62095cf852571762243fecb6de5;
    0xc5115628f6fdf83d9405115ec0ba38f9eb7ae78c8b7f1f132600548b7606c065;
    0xe22400d2a0668f2168ccabbd57e0e52a20226f8ab88ae09fb66e4c9c7cd1d70d;
    0x91d9d366ede297ad777a9078a6b6daf14b822083cb97c2d5562f361943fbcbc7]);
  (626212, words [
    0x368eccc726afcab35fcafaf09bba72ad1e9cbee06c1f8ecbb87596a1fefce8d5;
    0x5bad50c7d1006db963516bb5aa657d0a837f2f3f8512082204850a385340fb85;
    0x50faaa54d03806dc7b00bcc71a45dfeb9e40ff7ccdfdc6a406be8d797bf371fb;
    0x6ed313f98947bd85320f8db748c40e02f202b21f6d6f70d5bbfcccbe6a9c4ee1;
    0xa2a01e8b6cefde042409f9cd113f5d7e8513bafb6919c636835766a1e0be6028;
    0x136c7c1ef2bc9864bb1ef41fd20bc1de412ab95f6c616b33c359d3e0d3cd7c8c;
    0x649451f91e8dbc7589d0a3584143a95566f0e6c35e50990c453e5fcf66b6113a;
    0x421401b0709772ac0afaa0b73b2700caefae9767f07503840ac64cee9f950be6]);
  (711229, words [
    0x498927749e49a8c944779d1450038fa679814b9c977725d95017067bfc781ae4;
    0xc6acb5286d7b28cbd651d5b0409435c8f1c9f25ca593d42a6fc00ad5dec1384d;
    0xa7f55cfb84150707f64aebc007fc371266dc10989df8dad9537cffa6f459d741;
    0x8ac4b3a4235834e82e85c05f62dda937c5dcdd7760c31300510fd2d54b29cf91;
    0xbcae895212e73274c1f991f917fd31c0c174cf0ee698d2813baa4159c23fb82b;
    0x8f597e3542e88b2afa82cd63d23d68bbdf0d9daea239040fd5148ca8842da3d6;
    0x80b91c45a437b23785c4ef3f6574a58e1c1b63cf89873e2f0bbd51180d689f48;
    0x666fc407d8ba0b63392ee408844bb320d96300c55e589df13194f458880d3c4b]);
  (750443, words [
    0x0252dae6cd745695c7c50e6d47551ca16eb1800a4eda451401d9cc82bc55c24b;
    0x27d647a85aa1d510fbe4b52f2e87f4c51ef8fecbd5181f17e29d767824a1febb;
    0x295d5404bbb9c8b2ef5433e2da9b6b35cebac4c6e1d2d9fbc58eeac1c19be95f;
    0x0c1c657b7b846f79072c3d1edd609614fbadf32e4605a00d4a118e92b60aee3f;
    0xc8319b85a7d247e30d54f823f13e0601014b38272313c45117cde4428d786393;
    0xa23ca97a89ea40bf40f1a5948cef215da7862528d6f0bca7b46bc92468335bcd;
    0xa8bed85c8d07268cecc749794c57a6e148cd28b07562cc7212fb02ca6176c815;
    0x415c0cb3cf0cbd746201b824a205a573c88172320084791f732a8443f82fb195]);
  (829605, words [
    0x4aaf1c999ac47b3e92dce6d109175eabffab5c50c0ad6c55626fe74b39e67249;
    0x264080e40b5f6cf1cbaaed034bd49846a555b4c5151136997b86857b7392b478;
    0xe6f0a065d7f40b25b0461f60fcb31a332ba893bd1f0eae6534d214981966ab63;
    0xff9c7c4736dbc32ab521c4b09274ab8efecf334d41f5ca56ac5eb19cd3cb372f;
    0x4c9387b5914a80345e94d023f8b8e4ba94029b463ec0e68b9b04b9f8b27a5b9b;
    0x976597a3d8cb7e46ed90984e470c41161ba48bc556893b368c7e2f9f7581ddd2;
    0x9129fbd88de66a28636139008951780d51649eb3950d56c0cb2817205879cc06;
    0x075eca36a62a064367e8c04f4fdb5b332eaa6d681feb5e54abc99ec07eba0767]);
  (979192, words [
    0x7a8daa1258b9599c0ec467214af2a64c31f1d69d6e3735700309a834278ce4b8;
    0xbe649c2f7d263274c98dd17f436311aa250736d0fcf38036288b4be7696232d3;
    0x472cc98b4964ab045ffee34075ce29ba16203a274e02b4a1e971c1f72dc88b3f;
    0x6f3a7e3932db3f1ba1158a290597d545b3316eccd7cc636f3bbe6fc803bbbb9d;
    0x64d6c31233d1caf6956d2faa1803c1d4945b7c1031ba266bc2c2da3bd93c1427;
    0x1983348445a0b77eea0279ca1a3279281e92109f88bb7979af2087136a6adbc0;
    0x97f41de8eb8af9eb7b5ed843151d9754028cf9c735b0f7e1dd5c3143581d2554;
    0xa3adc5e0e223ce8cb07ffdf9ecbb33af6ec3afb8ca30d5d88fee8d176da7a272]);
  (1082464, words [
    0xfa8a717aaab9c46ef7c0d3a079aa06cb8d79b8ac214314c1f4ef5ad154f08044;
    0xc78921d16131a4d8f9674990cc259e7b63f7a8191b2750599622e16796638928;
    0x9fd56ac2a319f47b0e8bf5011ba868f9efccf2daaea88f798e306c474aa0b5e6;
    0x7395b6d987b87eb9ec8d6be56d28ec8e1a0d0fa437ec8f412fe41715d52b6e80;
    0x8a6d61531ee747bf0a41509df2e1946575e139d196660bcfb44b0815f6f1fcdc;
    0x72c82a38d85617e4c3a0293da5050809705c28fe1dff9aed645ccf7c5e8e73ea;
    0xe0f9ee84eb457afb05d194558ef26c0450c6cb982c803eeabea503971453312a;
    0xcdbce2972118771ea7250ff0a80dcbc4fbe2261b106724521d5c57164cfbcb38]);
  (1192634, words [
    0xca4031b32e4ade82158ceded1610dc4e8734745ff74abd781c110d022a720dd8;
    0x14f2b85ec18a6aba956143b63dd79591730c5af8f52b10d9aa643443d5366970;
    0x904bbabf944e4459a1d4ba1e1d1498272d5a99c50292ba120147d1f8d25790b3;
    0x88613623eef77e57c2618ea3f048d997dbe1eb3010fcaedd01cd825bd156437e;
    0x59e383dde0b45f8ff2a275c8f0a92a6152499f3db4cad8c3edf4e3b740770cd3;
    0x83d62ce312a1f64377bcbe3b957318284f72ac94504a06288dd90d01cddf89a1;
    0x2f1c76fac6cd6924e5f3029c373547db5f6820ba39c2f4e353c6c34759aa5dce;
    0xf98b80695d96fd4d2673cf0d25a88c8922ebf66716af6f5b860026595beac640]);
  (1208496, words [
    0x97b0497dae29439dbd1181e98599d8c457b626f083abd6b3f0b8e8bb8e36d6d9;
    0x979d897a7f40e564c5c16ed5a566c1402299116fc84378133657a6db90a7b18e;
    0x8b59cb63b3a527bf040ffaf15942fc94b1b04ad0974d8dcd4708a7f4c04d92a4;
    0xdd8bfad32236bf8cef987db7dbeacb6363eec7c80457470731044f46bdcf2ed7;
    0x59817d86eaf2031cddd88c632b0bd990e616355334b2913fc5c27f04aab735c3;
    0x92f581c38991c989b1a6e3635b448ac807166b81019c48bcc16cea8ffb0ac25a;
    0x180e40ad8edc16a2004ac24519f2fde2b4c151ddfd7cb8831055b90f6ba7d30f;
    0xd9a642d044f82ba1917142c09752e9e3866a9faa44336650d8d5f19020b1ead5]);
  (1327748, words [
    0xd123d4ae3fab4b7cec840360b40088b928aff91a414064c7aa2c3188a740bbb7;
    0x622599728403aff3f8b01b363e4c250d73a225df7daee68e0f40b72534f70e81;
    0xbe145231f827033f1b9332b66811a4574312ad18dee0a42c7052360a855ef271;
    0x9ff16b7cf8ce7e3b26134f4cf2fd5ea043a2fba33be9bbe17ebfa660bedd1a64;
    0x22025e8a88eff48fa9a7bac1e18088e1d606b2d225aefb088df2092c9686bdbd;
    0xd60af6db8e7764c521b01b913f82b828ccb1c59283541f1e935e67e8a2fa7a79;
    0x21e322ab1961e5b4e8910e2e3310e62554fa511557b48e52173828b8f6c447b3;
    0xaeadc1143061aaa03701931c3231d56105884b334fc5fca69aeea8154d9607b6]);
  (1361641, words [
    0x2cb69b6c8d069c87781a5d2dba70be84a461dd3608a1513e258e6021168ec7aa;
    0xc10159b05e3a3693cc0ce5a04ec328315a277a6bad0996389f0997bd1f74981c;
    0x530e6053e20d536fcaaaa49caff17aa48c28d6474e3170520d2926c29efbfa3a;
    0x21a4f89d77e0de0b3536aa7b9232108fee2b64d1aaf9366c42537230167d547e;
    0x18ae79dae47ef2cd106fbee2a1ca4579983c5b3a9ec2cc92c0b67e6e91c0588f;
    0xac43319e3434a3378522435dd050c87175479853a5cf38ce247c92048c9b4279;
    0xecbe7f4a1207eec6cc25925c879fcf6dde75e20fda1edd1974cff37352e332ca;
    0x6b87cb3c6d72462e19928c1db5f90896e51eec95fc2576762a953223158b301e]);
  (1364703, words [
    0x9bff1335746663fed0f47906962cd8429169d5af6e9c4d8e17868dd63d07fc0b;
    0x736fa887f47ef9f2ea278e974c3b299ef5d23c5fbd57cef4be53a36a51085d42;
    0x544a81eada24450109508bd5acf35ea8bc98fd267a03ae78b7f48ce56ed7fc06;
    0x9e9314cdc557b634454d8eaed2761776eb432b11ba6cf8f37e4e51bae91711ac;
    0x93dcc4009140d3ae769987f4a90c7fe150e56671a98767629231814f60863417;
    0x48fb211a44c51af49dd5e3a8cd2895e84ccdbebea7ae715c5f6a6ef00a0d7580;
    0xd36b438120aa0c8aebfa5eb55e5adaddcb7dbd340337df1e981991cfe95c3b04;
    0xa845d99dbf51a6ed91754a39f6a6d1c0b9cfc07c34202335661970619361d31c]);
  (1644461, words [
    0x694cb73f9c9f4ed5f193cc0f56693ec6dabac8767d17c4c4faee41ead905eb65;
    0x406afa05c5fb386642a5d89c1c3d6a9bf17c85b6db4516dd0136cade86cc978d;
    0x363fe218c2a08ac748f5af15927c6faf296bf31ca0d9ce3ffdd1ffb47441e3c5;
    0xf819ced7f07d6d42693d817f8eb85b9f15895fa7287cb72d74367a2c68bab772;
    0x094d530ca9faf1eff4ecf42b9f16cec5cfb2215eb223c126cc50860eee0a7d58;
    0x594f6e01c25953d6f19c16ad5900985ed3bb5787d4b2a401626968559ff185e3;
    0xd77755ab06f44fda4dba69d17e7209a048c7c21cf94c031fa9dee77dcb3d4e71;
    0xf723bb0466cd7b50ebb158a8ebf7d6168b42c2ecc4ada0ff4d2aab6d384a1d28]);
  (1869095, words [
    0xcd94edeafcddeeec4e5bdf7b4f2faaece17e53ce987279865354474bb8e08810;
    0x001771ed0cfd2b1d31da68728caa1230293bc40fcd25186874fe368c6bad314d;
    0x30006d1dead7b3c12cd3a249ee7bcd7c95af23802348aa1e975c184a12bc3ba2;
    0x2b69edc6ce00a40567f5c33174f954549badb7ba7e5354b3b757bfebb687db44;
    0x4ce7ffbac68b1eb42b86f99b88559d6a26e4951611b99dac9d1eabe2e1ea50af;
    0x0e5917129e4926687c847d8b5b2b9461c65a7403a9f1996d50d2c64605aee4ee;
    0x8142c621de008f37bef5c9d199c599945db78135246aceccf3199217c4aea5e6;
    0x69356bd18d6170f29fd42565707aac79ccbf72c89f0bc5807ef64a97ec5c0876]);
  (1911375, words [
    0x02edd00e567e7c035277fa9771e77e08663938ef1ca9df8edd1bbe3842efb196;
    0x02abc341673b7a0e55cb4428bf1cc7b20efd3a83b07f69c6810d6a6d2ad453f0;
    0x7a66a4a7a9d38f3f45288119197c19845ad1291a391d84bdca11376fe2f2d710;
    0xedbae6b5d9d7bb8d692556aff8868a2bc8f6710cf6e4998be9ca28dac6a19832;
    0x8203156a5a4af96319ea49357ad4acf60597b4f745f41e6e620465cdeaa5beba;
    0x83bf586aa4b14ec4ea90abb3366dc88686de44fa27c45129eacaefe19d4a99ad;
    0x2980135c390dd2816fc0bcd8ea9269d7c6f1ad3802966e92747fcc23aab0210f;
    0x2b6677eff23a9ff9bb024f8f003fb7794850f136de60a9c5dbff79b34bbf7b99]);
  (1952839, words [
    0x7994af86a87a28b176bc4900f53b14036e17ffe1f90ff66c0465d748e1538d94;
    0x510da82db7c0f5548d81b9ef7c5ee3a33c7e1a4e3a84086a18be8fa1af8ca71b;
    0xf42cf9515c8a02defa23897f0e9dd578a5e16223fefeb0e6eda1d49c5843e0ce;
    0x87e4dbfebd2a693f782c957da6e85ad84cd588deeee329d3ddef5a241bc5d8ed;
    0xda5eec39cff64d8fbd37d5c2247a692239da5f85958b6e6cd537e99ed5be4598;
    0xe9c44f8546680830715ee90d2c19f23a6aba4a3968aa938e32dbfe53ab32709a;
    0x267af6b9e205058e65235e5eab4aba604d8582ba6dc9fd19172110d991c3d286;
    0x1eefe07a68bb47b5b52d36ba65e6ca347593bdd66a6c116a811dbb5b18196543]);
  (1998142, words [
    0xd61ead8536de739c8f327bc9e986eaa46421de006b9008e07094d8e987c95bbc;
    0x4b90e5788bc0be33cde75e856076a74d684ae430cc436ca3b4fd559be2a29d9f;
    0x5851896e21dc3ba9f9b5ba2ac6de5e9637c678825b11c60c894d06649ea3bdd7;
    0x7a615b28f6ffa988a72f14d561951a2aa0a5a4c3bd2eb4667ef883406b993b4d;
    0x20b762c5d6ce3e3e9dd3f2a9c2635fa76f4fa3bde3da392c0315399054f92633;
    0x96efc95ad95476d81378250308807d125b33e00ab7d4080501d915b50766bc56;
    0x1ec0ddb623a862ddd2e94d63eae38d0d2483217ddcce507813845895c173aaca;
    0xa4ec33e1b0e3b1052e7f31025f612be26f90001c6e8536721ebd60dc9bda3737]);
  (2085520, words [
    0x6b63b80a97707012cb097b58542fd42e5778dab63c2f5725b2d5f530ef3f5b1f;
    0xaaaa23130764e3f60274f9f4b4c1751fa439e5f2c3f84de54f90a92b5541e604;
    0x2a340663b4f45eebad2cf58b1b9c658ccb86e3fe640cd5c1e2af78241c9079f5;
    0xd95fc8d15ade86990da828714d95f9fe8db60501881061a3fb31f08f941f239f;
    0x3769f4b4c303ac4365b022efcf3880775f37b2abc5ef9e3ec659dda222cd0d55;
    0xe84bf8cf1557becc2424c7649b8b4674e8de379a792f77381c3aa2108ffb3b25;
    0x705de7aebdebe2366c626681fb2ca066233115e2a1a1b22921a826061f1a1691;
    0x925cdacbcd82d0c39bec8de6db4be55f27761e8de574f3f4c128287c0158317e]);
  (2337663, words [
    0x253af16a1984ca192f59d2927ac3675a6f08a553b4f6f0c77cf482f91fc53d5e;
    0x240eda066cdd6d17b1b54cf054c88e5d9b68edac86e71500da8409191612634e;
    0x8b39b601f3ba44f36f286e50df1e23044caa2e845dfd29ce85c063e7923fc32b;
    0xb1281552e13d5900d866fc00e2a91e18a4739e7ff18fc572e85c18ef3076c5a2;
    0x528ee3b3a824ef3923e0fa3e3c6036dfb24f0341ab4856ddf9a892a44213c85a;
    0x2a2c3e089388ab44d0a0d8edbc587459da570eb1fe715db39159eccdd91ed139;
    0x3dc7677f5dcba0f87b2623bd1bec4cfacfe0afa5008068196b5da1cdc7a6f9e5;
    0x986186db9a732729e78be43a71d4ca7c1bc2d510ef7190e254419d0da30c5d29]);
  (2475379, words [
    0x0fd3b59477eb95aacc4c8df7961758f36f9ad3c47b169e9c4e8f5c764d0af2fb;
    0xf2f46e15d95639a83c5208779dcd13564712861cbedfb2c7b0e2a22a4411ba1c;
    0x477345cdb8ded74672112229f32029ac80b1b0862ba0cdc6db308a1025e7517a;
    0xcc94e08ffd964d7e5512f614999b95db472b4fd3964be0e04c2fb4e1dea0fb75;
    0x64f085f1b596197b9a4b1359f2ec737e804b08be5817afe1f51970f44e2a8730;
    0x4b4426907bf41b13aed44144e785617a3f89c0bb956fcd374b4aff22ad43c7b5;
    0xfb763d6e75af8f80813d544296897270348552c5d289b4995f1cab1be9fd2f2a;
    0x388a8610aee75ccd94da4bc625a1bf8016d29e4f1bb70951be3f286c10b5c766]);
  (2737654, words [
    0x63ca28da767c0333cc5096b37eff48d697fd8f5403343cab8d655b08cbc80fd6;
    0xaa61a1205eaaf1b961e45070d2af929212a4ed484469dfc8b2c0bd5b3c6dd693;
    0x42dba1805a48712bb25120ff470ba3cca0fcd125dffd0a29e848fa74e83e5069;
    0x53fa3561768b1798594f2873430fe814ea76d0da7a013c1f6810902f8fdc726b;
    0xdda29619bec361ef32520d11a0db75912019c64c90ae067cd2f2433c5d6625b6;
    0xe3e92ddb6c1c5e21c70aa8b283bd54f17c94193ba136d618dc157d4cfe261d0b;
    0x48f609f081e9c52cbba50dbf3867030dc0fc3ddbbdd71700bd0e22cf05e61d48;
    0x00ace9b5399b68fbd339cc0c387d51b740fb5bd1d1a96c0cca7e83a6a5bdfd5d]);
  (2894412, words [
    0xa2c2269dfb8f6dc739240c80bc702111c6c01934855a8ff328e98a41dedfcd30;
    0x8ba71e4e2c3ba1c33bfca35f3961ee1b72bb1670806c0e71c14b2e85aed3be4d;
    0x19282322cde698d36b69e35e95fe0b4beb94702c26c34b8b2ac13eeedb7c40fb;
    0x88df3891bfa2a0659bf4c332f36226b0b37e6f7ce1b51f3a6b36b4e06955f761;
    0x593972853a65f355e6ca62950ae604f7a544546de333514478d08e84596dc18b;
    0x8b4cb3e436407437c364ca5b4827619133085d8846a07a4d1888780ff9c857c7;
    0x4dabeacbb563294e977baf44f3c2bf889f96ab582b59ba15937c51ff7a0ad396;
    0x6db5c035f48a880dcf4aa2523482b7772f6b57078493375b0c3ce428534cb9d9]);
  (2945535, words [
    0xe3d546a0fecbf71d6e313e7cec4449ac3753db8e6585705ab2697545b42ce927;
    0x824c6078e30f236ff42039506ad820c2945a9858068fe440a664ed51d82234d9;
    0xa8b69d257ab5679467d48ab2ac7efeda35869b11f8a81331480a02d96c697483;
    0xc96174802a381e378b083f738271033ed5a0e0d3abf01b06de7e6927f5c00f36;
    0x68129114f9cf75a9756985ab7a9f5a75f6862752e7ca11487bca24ee67628936;
    0xdf7770dc8e6af64e114106838567f7efcfafe6f0f10f838f3461c2229afa7aee;
    0x21477fb32e437052fb09e2e7c65cb7f844e55c9c9694e6cc80bb348e6134f628;
    0xce5dc0f9ca8dc27c3f39e2c2200642329512d5b09a7fdbe1d002c8e6a490058f]);
  (2951657, words [
    0x192caa28fb31c11335855e7917d885ab5ff6b9de1fdc295af0a9cf2444960659;
    0x7448440fb0f34f2043aa26d84556577934f9296d711dd77561b10e037afe4554;
    0x020c965c201fa4cfc62cff43b5d535baa85b3ad5285398c79e76444541680b3d;
    0xc683203bdc495db982e2314e6a1a69284b0e23d0ccb92104a2344023b3af7e9c;
    0xd49051dc4af9c836bf29278b605fec31c6be8fbec25758a9e079984c48b7d342;
    0x28f6e534ee10d8c2876158f5f8c49538783c2dff888453f06ca24a3e9a0d1dc6;
    0xa9c829953b350b443e7e842d000b933e86fa2a81b9253b6cfc1b0c0e392de434;
    0x0cb2940f684d3da276a237637f2399b98afe5c13d4e65384ec82eb943354e745]);
  (3005279, words [
    0x5224536e5b292da121658df797b1dfff0611fda14d49f88efc3de51aece0add4;
    0x937d70989b35dfff1e173bcb6b9b5769a7b315818ac2f138688b2651f1f81a06;
    0xe55c797e00fa167e8218e708af2e13406de0d27e89e817e1ccedd7405972454c;
    0x571d77175059f3b719c6624dbfbfb6e61afcec21d56b39937efe3e3f3eb25888;
    0xb48e3093a47fb1f08d96c3c61b0c0734c1edcc7fc07650cf6e0346462e235f92;
    0xa1df6a728475e2442d808d3718982673cfc9ae349d2c31347b2b07162d14c954;
    0xca02d739e250060c0f960067081bcccee3770b49825c766f45e5a6d3dc857ad9;
    0xff9879fd646a30b5a480b08b69c069877e64d57796d1ab0300d9d7df776f9c93]);
  (3078390, words [
    0x6afb33bd88c072f9020178cab6ddd20facd88f394a996c903caa06cbd342e641;
    0x0f96d331a93e3a239d06461f0c8ad6a5eb438c3d013fbe96bb4a886bf189e1bf;
    0x4b164bc1e28b039d8b6dff0bff2971e18d7e4600b509c808e33e7a74058410c7;
    0x98729b4a75016415fa4c66d3bdc91bded091310148f19060ab5352fbff541df2;
    0xbe370fad2b3a775f2c0340f70d66398fb467af78b01852733475093c5ad30506;
    0xcb14bacf0493c053f6258df8fe38b547bd9f9c5e3b7966f4d1fc032714c207a2;
    0xe0ed4743c94a40070c1251c4c8be9632495371210d5ef7ec71d5e67d704fe4d9;
    0xcd114d5a8dbbd54fbf2184e4660334ab287519956b3138677094f66ffb290e5c]);
  (3103574, words [
    0x7aaa81d7b75aa13673770715bf43720988b9225ac6a73dcda02b73ff97d807da;
    0x564abdbbbe44ba00e784e5bc201f2f59c7a5b0f588efa9cba349e006b6137f15;
    0xf4118e7ab53d31f115126681cc8ce2d25f200dc4907e749db16e247ee6e43de7;
    0xcee7045c629082cc436bb5354f892b1d44f3d37460988edde66e2f2061974053;
    0x8dcdfbd8172ac1f646adc14feb0a8747c426714ce2d265bf38cb7be4fdade579;
    0x2cd9b54935c2535202b6764883faf5153db9ec44e4dacd6939a22eafef04b084;
    0x801de23d89777450d6281209f33ac73b8e98793b12b440e36d79b90d30271d5f;
    0xc1ac34db26c04b6f9aa93f955b1e4f6633c58e8c116c97bd9b9f97afeb7cb81c]);
  (3152057, words [
    0x0ec8fa2b48bcb8f72845b8985b977f233ae5ed528237e117f365182d41e6a1ff;
    0xb39ad02f6672b83d8f0e5ae96a824223fb6b009817dde8e0b8a40b933b07db58;
    0x997dc443140626322fbd731322072ab80926796dca4992da9d9592a33d2324b7;
    0xa13a187c04d23dbe80918b2192000d3851f2684bc994822e31f5eb0c4b6c02a3;
    0xd7d7c7eef00e657384bcfa4977c397978305d2fb14ed3cd69719f538df137aeb;
    0x3ea171aa8166c027a3d59a7cf6f74dbe089d1b5905733ef717dab96aaac2ce4d;
    0xa22c05794a94ff2e4283fc6439147a03cdf9696996ef70e6cf94caca6297d158;
    0x5e78fbccd1052b3ce94749f22eaa7280fff37c1bc2faa1fe99fc883a48f2e420]);
  (3157859, words [
    0x810e9ab53f37c46f687a3b2234ef4f3975f3881c3253da45f305faff5b37b513;
    0xe60d4706fd76d5e8df68d264342b9b911ea72e3eb1ad8b7395db82ba39d898e6;
    0x2f77ac307f1a5103f5286ddd40d025beb86e18e6b9daa43f52032424be056f7f;
    0xa44e7bfc619d1c6029b742b1f38303fe962f975732b47566c3858070e3b74df9;
    0xde09842dfaebc7cbb62219e51fb86cd96fa8159f8ebc94d9451bda612d7b89d6;
    0x5cd1a472a09b0987fbdf5ac4776acdbcf1931e87609706c12816fe49cc046ef3;
    0xdfef5f98b466619507f2e46ffa89560d9037476362158ce98faaf56d7c8e0f0d;
    0x0a587af08172977106a9bf75d4417b6b91f43146325f8502d952dc1cc1c0a52a]);
  (3399359, words [
    0x710493eef979e32cf49c2c5973a3b9db8dedcb69d27ce4224bfc5907681f466d;
    0xaa45fba23326060d104ab17b465df8cc087b77d08e76de7f40079089a6e08728;
    0x8ca83787560296a0a2b1b568608676c5c61b987458f68bed9421da79c03e4f32;
    0xe1d6cd2ec017e79134dc61b659a5d225d5dc3f6e4d2bc5d5121c3ad5131a8c7b;
    0xa34f8a6bf6c8af9a4f92b5a1cd2b684409c07b99fc9a497bd141370f20485b8f;
    0x2f44fbdba0c16487ad805dcec8b8bd1fc0466a2d663b0ecd64eaca45bbf0534b;
    0x24b5aebdbb8357bd53beb7532d7b586bdafeefd32204280be7d3a2558051f86c;
    0x6887980dec491516227cc8e9229eaf58b9e71782a0d814d46c6ed3f81a53e445]);
  (3530534, words [
    0xa19f1bc4a976f5bdf8e1ce3b54a28b2a9fe0d551254517c508b2032222420c87;
    0x05051dc248256a2763b6a2b39bf14b831d62a470024d19455747f71451539810;
    0x961db39437a2a45b0f55356e23fade2935dd70bdb55586e6e66fdb44c221eae4;
    0xb54b3c0d4ec1fe836a211b25b36577d61dec283dcd3defd1ee015606f703ecfb;
    0x80ce0fdfbfc0a94df331e0b6b3fe0023e53aca3a7af24b2f024c15faa59d41ed;
    0x594b6596246ea936b9f10c4b4f369bf5a88e3641bd62a969f6ffd6c2591176eb;
    0x98535964953f86dd70df43f3211909a2cd334d5b5c6b68b1f387183eb086370d;
    0xd34c9505c9965ca78f187d7ea36a312ac07b69b9680037a7dbd492a8dec60bc3]);
  (3618824, words [
    0xee48c223815084c606b6cd86192ca8f01c218a10817032a2aa55a5245b14ada1;
    0x9075ca5abefa09208b9d1b01728a6dfb8247866dc3ce795d2d47cf03e4fa5997;
    0x451a4ae195e4585f24705e391f720a586d5cdd702ca7ff2a0989cd3a4d6b5afe;
    0x7d6564618187c3bf3d48b18ed61cebddcc2fab3b7cdb66f44f6a720b632d8d93;
    0x950394fd4b3df3d971a4fe0c7b38fc99caeb7f64dea0b5eca28bbec70b8a7abe;
    0x4255996c179fbe145114bcfa9eeaafe027811e0a3d5f0c9893de070cf0ebc500;
    0xbdd62eac740e4c3195dbc3610fadb2238bb3b28363f3f4d5aa7e27e298443100;
    0x133ffbcbe2b58f8afcac67639330305a690617b7ef429f251fce812331acd8cd]);
  (3685847, words [
    0x94b2b6b38765683aebb60284c206c714328c011157b8bc4da6e29537fa05aa57;
    0x2170871ff47e7c461921deac016005c673977fbd7927d61bcaddda70ce76c328;
    0x7770018eb38a4dec6ee0afb2d42925b91bfed0f1b8bb9833604f0c679a61568a;
    0x7ec6626008a3f166bcc099b6943de2e083d480f372a1dcd2357e45b9a2385c5c;
    0x8d2d3521cffdce7bbd905c4930d97eead09fe27bfc44ec72157660ca5f464b9b;
    0x6719cbecf22255efb9098d7c94bb7d857938d4efea7097d355c3d2f752e1f458;
    0x93ef5433039becab21bc37536847bbe15bc7dc9030c545399decf2ed8c5bfc5e;
    0x92192412fc33ba93d051db7ed4a5bf35171f0f6d036ecd43e7ebae2689e86de2]);
  (3788079, words [
    0xf17fd45829629f0c1a529cbca143407ce74db51b027ae01ae169508dcc38fcc0;
    0x5a9e94094a705a978d8f50a0aa4e569fde3bb6285444c8e4d113a62588aedde9;
    0xc050e81adc896694d0c9ea0cfbc2e00cf2dfa2022067ac3d7c0a7a078b5601aa;
    0xd8063c4ae768faebe3c4d561c740a2b929ce13216a5453f65442069d073ab3dd;
    0x038fa6e8f104f87c9d2737d075c0474b2bb7914727dbd4657e2921b463dbca52;
    0x9ced040a73cbbdd1570bbc5cd6ec3a4d3a51cc9488f9902d175e9b6fbf912467;
    0xe1783157b78f47a27843c955fd89e98432fd2cd5f140076f1e077ee70e6f9b4b;
    0x9d32d9aed55ccffb9909689a73d6f28303874d4a3ce29f08f1235e188f02a61d]);
  (3802773, words [
    0xa4627a2a18ad9e23b9ff37f91fc65ca815d35c685e479fd26cfd2b8220a78575;
    0x8c964668251e44ead8fb4dee46712b356b5d27649ec8a2c72711bbe40a4c5bbd;
    0x295aab97d5f5f295aecf7763f20e2f1916dca36f0008a257777b90e81d140ffd;
    0xad91833e1ecbd478db12d451646f30a31cc766d2204847a9071283a931fcf997;
    0xfbb60e6f6d5045b7bdaf81a9ba9fef864deb65f8d70b813ce55bcd72bc298d82;
    0x139d197588ef373c67bc80fb8dd85d447595ade3ca8311b1fa895b343ec083e4;
    0x784101b561645353bf7b3e6bae5ba8a55f3c466214446b1c1b4966128b680de5;
    0x2a77b966043b9ea9c072f53608ede75bd5f1baf99e8bc5007a6bcbecc492c814]);
  (3809210, words [
    0xf145e4d4bb5bd13ccefe26f95e93b820b41b1d621da63384267daff17d5b6a5f;
    0xa5618c198140ad60e63f1c4502921fb79f509585b63b3068142acc3ca895e07a;
    0xef582410c609d0884ac7a59abee54b076af93998f73beda459a596ab175e82f1;
    0x0d065cf1467159978c8a8aba024d9441d0578c88912f33529cc8a72af9e03f62;
    0xf8b5613b4463b8f2cc9d55ab28245e8b72cf2aaf3b0772d007dbfa7256bfd7d6;
    0xe39a6e0e5f0bb8abc5739a32c309c56fd1c5b7206e4f6a583eb566d980c52046;
    0xf7b9909457884422c855af1d3f59e83ab642c4f6a60a39a4d78a9a83a30b28c9;
    0x0d36ad481ddd3db84d52b68587297c0c643a8488e9f58eae4eab859ff9839c60]);
  (3862278, words [
    0xed84f0d705cf8b67c35eac2bdfe1ba73546fd8ebc1e8cf85835f43258416695e;
    0x925541309b5f288783c448b2920b4ddd99c79330d3f4dec03ef4b4f772455319;
    0xb21819545e8919a99d87f7b7699d8d6172388fa62799b57b6fd7d6f319385835;
    0xb152ab3ff746410a941a9e34c433834ede528aa6633befc7672a3e61b538f1bb;
    0x5f9fde5592220ced140e002404c73a4b4cc06e8caafef62da7a86cb51051957d;
    0x4a77933af4b539191b78b580532892bc54e4b0b2ebbaecd126c582c9ecd1055a;
    0xbd48bad2845c020b92793fb5eff647d1c43f8420e8d6f36c5d5deb0a8c0e0538;
    0xfe5f80a068bf7c484203ab2343d4b9085d1f6d779a6ec608ed8fae77ec6eefac]);
  (4206346, words [
    0x1e9f272256c8fb35847b6e11954d72482c34fe6f0a1f9f9b612c73658104ea5f;
    0xcd8bd29edeeb37fb3e1ac8fb0c0e6304da157627f47512a52c435ec4f5ce16fa;
    0x82124b4fdaa877d79aab61bcad1aecab2e91a67b88abe6fdde6f3d8d63637974;
    0xc88f0315b1949e51a7ba181b620ba0c62742d1a6a09c61376f4a437022d07948;
    0xd90f470ed2c0b48b9b377b767d8c8da3fc99dfde00194dd2be282bb56a787918;
    0xd0bfeaa7236490fc215e0f77a89b2c5f36936589ded2a83275cec08414550dfd;
    0x2ede3f7ab67390f82d14680febe4dc607b1e0d83b6229bf1b31de42906e8e438;
    0x18bbc51753efeec4c0522b137f358351860af2dd4eb814244da0eff70d81e60e]);
  (4273364, words [
    0x332fa53d5839a7a62d81bd29ce49bf9c840be8b7b50ad7541fd654bdbc221ec8;
    0xcc9a172f357686b32d62db0b4f13b8fbb85913554c64f1c5c2800c61ba6e249a;
    0x4c91dae55a2dd23366741f6155b1e8c6eefc0109fd370d2ea59bcdedfa5eff77;
    0xef6f22656f6cfdf2b3242ae510c0f0d7715609e0678fab21db47f03ad807696e;
    0x716745a40c07523699dcbde444bbe9925348f255c6b425a3e97ebbdd85885912;
    0xf5c576d1e2bfd28b2b1ff30e0e3ce40c79b469a2fe4b3f0c3a1271270b256075;
    0x3b26ab8b22ce70e12244d466129ad33c65c012337445a6cb3240f9d906eed106;
    0x81891a62a711850db9f85f75b706e54bc39e77d29db8be5a926c78bb6f7c907c]);
  (4330676, words [
    0xb09a9aaf8c78b5291ff0050ad83cf33447169aaa2c199005c190913f2e0c328e;
    0xfbead181c674cf50a73a42f41d74279a55ebbc9dc1ff9258091f30b20dbd9277;
    0xe351e0fd6310601e42369cafeda7830d833c25755dbad01a18ab3b6899cfea19;
    0x82fe4be8e49a9179dbe57158b3c70d9a5becb1ab7a754fcdd20ac4bbac7b45c9;
    0x385ef31a618264459439d9514de806807863a8a8c1af4082c01dcadb62d8d33b;
    0xdf9fdd086e14cc6d5beb1d6df3b56e2c6adcecf9d798aaa237417a9de81748fb;
    0x76126cfd465a37e6ed2417e9d79dd865cd488282cfa63b2f85d99493ed4ec9c2;
    0xf09b7d3939b849ccb0ce722bd247f891efc8acf035728b7936a966e30f137a33]);
  (4419949, words [
    0xe4a345ae746511df075839d90d2130f5db4be800a2fab59337a5538294bd4d67;
    0xbcc3a03845d6756e94d455c128e52a3fceab5784421455046e803401af842ead;
    0x6bd4e1440aba29a877a7f19e1b2f7c03454c07bc26eb20eb754859ab9f555bca;
    0xd0e970ea2f1b364757d00964f7e8f6f9cb291eeea01a4b2054cc2245abea637d;
    0xca8239c25bf0c2b372820f557ecbf0efdd42248d7f1af575eb2ae72c9999f697;
    0x0589179b457b7f7b6193399087754091e5f75e3d196d89cdb072e1056b4d2c05;
    0x84dc9cdfc2c0004d0561836aecec791165be6f48d5782e6d79cf6146a1f5d5a9;
    0x665c66d8213215254b6ad909b4819d2b5b7daf207ec3ee998204e0bf4bb20a2f]);
  (4736350, words [
    0x98faa07c0cd536ef4bc2152b15d453812a144434247b5b21f6ff78bcdf1f8e97;
    0xe88f9ce1aab390dc0a5052ee1a751e0e3e8834fa7ebae4f0814b6bf2856f6fcf;
    0x7cd3b95ce69edf542e3fba9f38e22fcbf9571920babad134a93d0f2eae2d40f1;
    0x61f46edb0b143142c29eb79171a2f2d37fc05cdd6988a39062d08ce673e9f6fe;
    0x32d2729db262eaab06f7e74e480d4f80a0104576895e6cf3511466d890ea1bd1;
    0x3435c569552d56831a26fd7117d6135b94dbe64cc484bb4c7bf1d172b9653924;
    0x48367d2e1434c95c55b06b6b182500913fc90a23c76d56c36f540c665c234062;
    0x3081fd2e1d1dcf9a7b57a72440dd49381c334b9c3022d25318fafef6b86666be]);
  (4743285, words [
    0xe9764a6eac72dbe6bc6cefe03496bd2687cad47d45957133c58accc1cdfe8be0;
    0x4a74fe6f3b1dd60db3d0ee2d2bbb4a34a355824e88ba5a9f4842f57b811ca47c;
    0xf839593229c8aaaef21218f5e7c385a60ffc562edd3baff944848e167319395d;
    0x1d9aa76bc00340bce32fd5c7c2e4d75b8446e692fa8a0b813df8736916bc1bcb;
    0x01e3d3f8513a01ab65624ac36303aa4e7297d8a44f342265e73c556a15b96088;
    0x1ebba17bab9b4faf905bacc4a96e029d96c40c7215aa0ef2f521426769443a25;
    0x374729fa7ca38a51445318612b5e8dd45bc49b32a5acd39effc8ec8a27458651;
    0xd64de15ef12c96111d583d5d81f10338ed386293dcf594f1f3f4e70f1e96c08c]);
  (4814263, words [
    0xe1bfa7a4dcc893e7524046d59dec1022b76c3104ddf5da52618a07244697503a;
    0x685f23289315c851ab5e908cc52a659360bc9d2aa575156ee03455500932c24a;
    0x535317f25747efa5e77aa327a46a7031c62fcb60cf1508dd64f74a25166991f6;
    0x73c7ee26429b617aed8a1be3f42b5a81274e6b03b1a332af8463754ef6741d1b;
    0xf9446408de6d91b75cdd1472377a2ba64e61134d43747826b9ac83cb623b817e;
    0x742a5d51def60f3afd531dd9f42ef8eccee06427e3807964481dd61bb05efa09;
    0x10b42fb5a9ada6bff371b8d1b1b297fec3be60e7461362a1bf25a80263363803;
    0xc5c818e978cca92ffe7eda9d1bd780ad58d06cea6512cd783b925486cd0b70ed]);
  (4964439, words [
    0x2aaddadd227972d9920e560fbeaa0a529e70900e8adcee764e5606764832dd85;
    0xc23b2ee6a3e35aca693c5ab22e6207ecd7219ebab682edba51ae33874dedcaea;
    0xc530f88e48b9375a2fb377fd8e2a1c5ca7939098fc00dd5b06b8921a9d1fc1c7;
    0x754ac8c22acedbc0e692187154aaf2c0de99129bfbf85f11f900a427056f8106;
    0xe7cd07ac5c719a5079672bc7b82cd9223df462497d4069186af90c1a692054ec;
    0x72bea0b60423b86cac69385f1bcc578412c4069929358f841f87e4b5ac3db022;
    0xdecbf43538b342a2c27c19ebde543b6bd9d66435f112f64c4a5e0c62fd50f984;
    0xf24ec9c47ce61f896b4d6604d517b0056b4341df1d878e715ba42ed37160abbb]);
  (5034657, words [
    0x165c323b2e1415d7699b1ba51087dfe80a3df9b2e8990297dd201572eb296117;
    0x5e9a15dcf5b05909f3f96798f7ce589cedda6b29117b63d26671a037f5faa776;
    0x7f338ce7164c2ded8c545b2d2930bfc1dc62f95a660aeb8238c684a229b28010;
    0xde6a196730e71e28544eb192539b8825ec94988eda9334de419056f7e8ed5d9c;
    0x88b0bccbffd7313d7e183f0babed21a8442cc76978dae84bb8b904aaffe8e2e4;
    0x4562a29bde5079724b36988fd959b6ab2edad602652125eda1f8db1472c82a07;
    0xf23258218d48e55b76d4a6e4cb1b9efa39c54a4f1875c7d26cd5ca7cd6d63830;
    0xaebb8063dd85b9d53f847c13eabd66a06a25591d0aa283fc50f8a5fd6cf6fde9]);
  (5075557, words [
    0x87de40f82c131ccff7a7cc0c441b991bfbbdd524c1ad11d98440de873fcaa42b;
    0x291dde4cc40576941e93366407344c7271edae045e2daa88a86c825a4b59d869;
    0x6c86fd7747e3cd012385fbf95712c03edbcbebda2ab4866b6792f0a2651a19fb;
    0xa299fd99f6a3ac34fcd63e49898b5a6e7aeb04899581dcbad256deffce789a49;
    0xa83212a04daa706569f2baae81e0e90922acfaa7c49143b71e4334bc4cc66bce;
    0x4264c95da89900ca43141c5311df86c5196098bfacd6d5dc17069f15b96b78ab;
    0x4c8133669f26f34cd4c395072a8d3ef4ec9b36a1738ab9bb8d62dc4c83e5f078;
    0xb38c7d51a51436835db99bb930437e8f0b32103166bf204cb5eb5e7dbbdcf5e8]);
  (5450771, words [
    0x2cfc2bc96487663471bba8ed11c13dd7f7dcbb4d2915b79c150e80eb5767530a;
    0x18a6b7965f1941de1f7d6a18b18b427bd598e9461cde002b9963c481fe29e84c;
    0x39d2618da3674a706fedb65536b852fd7d8127acf2d9b0706fd43bd9d2cfa393;
    0xb4cf0c92517de4db40f9be9ee97ec287186a2b52b0d868749241d361f5e43abe;
    0x2fcfb6f6718037023ab6ff32ab79c190f88b4bae3c11fc092677729c3e274dd7;
    0x278bfe8557cfe0e64795109d2519575b9b8a011d6eaf0582110e22a3d690b323;
    0x50b1734ebab62b38b0f9d0f05c06f8a463553324cc6b06f9cbc2f8b647c80fd4;
    0xa7451c599215f0b3c2567ad1d4dc4fe07f8a8bc35e03d682f7f219a4192bd41b]);
  (5477276, words [
    0xf47740b3bee536a31b1c8ada8583c2c8d4be96a20ed05e4a809512c087d9bddb;
    0xcbaed555333776f0a3c571eca44b88e9123266b6d87c85128f09adb7e189e957;
    0x56ca4b3a64cd167078c1ee6c7a1de595ff9f5c9b915e3e96a5b794a251f31759;
    0x0fdaba89fb92ebbf8860bba641d43d6b585e8fb185d57fe606bdbc602c819801;
    0xc672555db09f751a6fce43b65c56ee1c1c547501beade99ff4dd6c41060492b1;
    0x0a1810a658f46fea4e2e4b5f897e9c0ea4fa1d038230603e7b217ad3b3067e60;
    0x00e5042022cb02ebee722cdb931953fe4385b4a55fe0fad9aeeb9cc4be3c3ef3;
    0xd740f9b6e86bb37c369ea33afbac548b17a2ca287f8dc58595aa275acafcac7a]);
  (5620849, words [
    0x0186d7aa008c179925174ad20d7a5821e8fbc717815781f6937e98a2553dff03;
    0x92f2972f4d1b171bd47732ee4131f1b9d525ec7f218f040baaeeda77e73d6405;
    0x74ef197c8d608cd303414641f6da1a509f5ef1aeac906376adb272de86569395;
    0x547b60b514411d7eedfa2359074d97dcc67ffa69610dc14bfc27b5fd054f5af4;
    0x098256180f2cd50b474c1fa823a5246fff5ac6b839fbd4d1e0d90c0fabd538f2;
    0xc503d616a2e6d54408ffe7ba55504f999f463a0044be45c1d31021a79f32e387;
    0x2273ac787c73cc4ed88b475b91e66591c8df3ae3026326d02e3e7d5ebd3d3172;
    0xa9c6d5bb1e6749ca23da84adc9e14af8ba6eafd04be9e39e1cd897538f9394d0]);
  (5645768, words [
    0x673cb00aa7576863c20d1dc1336c0b83ea9c2090570ce20ce604f87d914af78e;
    0xae727c8ccbd9fe422c9b3dc0d197b387623523f7c1c350c9018dac3ee09c6d7f;
    0x2e6cce66a5ddf0af0d41e8387896a823c3bb6784e0ab0639d445105907735c6a;
    0xbb9e7d6fa007dc9f9a7bda9c50428725ae0223eaa98e2d6bcafd1f040790b38d;
    0xd36de14e50959e6cedea72fbc6f202549e5dfbe981dbd3035cf2ff88666e483c;
    0x961e5e3039b93a35167cb90e3f609c71632a2e3829c4b0ca662e04f53bf37c0c;
    0x6e6712422499e040fc3c30c4d73ada857fc3418c37df072520e2cf711c3814ec;
    0xb605b212b866cc86a9cb40a08b32ff9e6a1aea5e471bdd4394a2c52ecd4e5453]);
  (5681177, words [
    0x73cb5a8fc3e7eff88c42a1a13a93908cb3b146161ed2cab7911f401973872a68;
    0x3074c0cd120392de7e49ebd6d45035161858998cd8672622440aec364876865a;
    0x07eff67737d339643876f7becfd0315b417f89799c03d1494703e2d6995c89a4;
    0x65903d9b4f45c6e03c2a891d2e230133fd8f2f3c32a2931e0dda3837a57a4594;
    0x0c8e9f45202bd217b8276ba5603f03d482ecc0005e8470986deea49aa01080d1;
    0xed4f29c0aa99d34cd788d28d5e007d4ed8b08d5dee4cfef2d07bf04d3c3ed3ee;
    0xaae21ec2c8d3756a0964c51bd628e70cbbf03c9b4ab67bc346137fefa52fdba6;
    0x8d39c469d23be72b3d817cc901380b5e011ad0291fdccd0823c0696110f9340b]);
  (5766932, words [
    0x54ce03b8cc236dce67e7a1cd0960992c51992c29ea4d767a077482e3bb3570ec;
    0xd3fb678279564fda718022c723a6bddebe9dbd3080ee0774491b74e1ade1317f;
    0x2bdff9e6e84236d2881d1e39b98fdefb70d73a0b3024a3befd0bc646712cd30b;
    0x4ef6f12733b425151bd2d24163ababdfd9875c05107697ad76901117bad163ac;
    0x7335854b48e8870f997ec2ace5b73e44a8512b01aae2057dba507b0afa2384be;
    0x43df429e44eec39f9533af24ffd6fe765b72ba3e1a41a0799d1e59799e8c1552;
    0xfa349736160daf521349db0a1467029332fb054389cb17bf1b26d3c59105aab9;
    0x396fadb83955e55ec577cbd082c077f3e1a55226fef480b2e5797abdbd741ea8]);
  (5954110, words [
    0xd9977637766abb4187cb248ef5b44911c02f7442c70df8f0d1ad86a83fabefad;
    0xbc02d378c362b41285c6c5b975dfd6b4a9b1cb114a954eb8708d38655123a7a1;
    0x1cb16b9d59f0d54c6cd08463f8a43805918e0e2335e8a636f93319ceda5c7dc1;
    0xf308a21ce423b5654af78192febc9750192a60cd7053d988912e509909254059;
    0x46669b3579fcb07138ed6eb3d18573b5f636cf5218abb437da60406dbfd314a3;
    0x4f9832b628c11b91a1bcbd76873149bea1bd9ffaea090d843c7a2def196c4f91;
    0x2456fa0b39d98dadb236d8e3ad361b5b6e8f43e0e938b7b2b0c7f6a868c63636;
    0xcb6dfb44cf722ebc896606501f5ac6b6b4eafbe4e37dcddfaaf3426dfb6d1850]);
  (6051537, words [
    0xb794b3662f8767b815daa665df325ed30525df9fbdd55f89b3ab25098f791082;
    0xe6de6af7925fac3fbf1b88670ac7de3c974852407759fc4708a02b639a21d520;
    0xe9f606e555bceaebc233fb10b2328c9e8013a966caf31368d356c2889fc95d00;
    0x0487bc0502c621318b0aec5442232a57eaf5a4c3567504d4a2a90f0e793d4dfc;
    0x02a1465f4406e2634f39d5b460bb8105d2f06b0ea4598fa6ad75d8473fce8b7e;
    0xe47601e26a9d86bb6c6f71d020e89cdfd5ff78b292a3e1dbe0cb7b0cd22ca796;
    0xa1981b0b37c156e85f682c75ae78e69237e2709d2001384e3063144dd9a91f4f;
    0x1611d8d79611679803eee54d5cbc24d4938d149d7a97156d41976435648fa301]);
  (6195314, words [
    0x785bc767f530a273ff82c9bc4c42a3114ffe4a694aa6c16484390b4eace2cc7f;
    0xe72b196ac5cb9027fa4f2271d6b2fea68fa48cce1fd729ecff69d867b3c22858;
    0x43fbc19c61fd2bb1251ef292f1a03ed39fe8daec0cc7e678a668806f13619b3f;
    0x161cd7cedbf5234e4c441832b354b6656696995743be4044fc6cee9c32d311a5;
    0xdc640a2007620bfe89646610bec12ba8bd8103a9f0878dabb4c32794f740599c;
    0x10bcf06d81be8f3559839ca45455681493fcf8534ac8db708435ed5c44807158;
    0x48dacf80eb778fa1e080bf8013d82dc04e967d23874a94f9fd403ad5c11e6272;
    0x770ca1dff05163aefbc557bcbf5204946b2039df3c7acd802ba3688bd44a7a54])].
Definition test_l1 : list N := words [
  0xb5af2ef963a64dc254d3d9c1c2ce4b3b6efe268afd6ef98a40f2cf9826bf6dd4;
  0x996ae335d320526f1356d4cedd4944590f8839f07aadbeefc9f58138437fe134;
  0x03f5702049c134ca40395d06bbd70f28ab6fba0b52022f2d113e43ca25d4b9bb;
  0x9995be8fa1b9b66a520503604dc2edbedf58cb787a43516b3a8e15d668ba612a;
  0xd6da0f5ea33ec6c90d3b8b43f98f2cd282973e76df53e9bdbf1289a412d046c6;
  0x92a345b5c28d91bdffb7d799366824e18df576355f697d515ae7f14493474f1c;
  0xeaa568b630c536d96d2822aaf44247a08ffb5a80b47014b709a6712bac5c6e82;
  0xa54fd3012e9b832374128c7a6689d8b6816a0b5c3257145aaca5d3c4dcdbf371;
  0x2595bef2ec9f9b08032a70ceb314d917e52b70632e550688f17aefec0abbc7a6;
  0xe877b78de7d32221266fa4c138795eb8316992aebd4385933407b1016c5bb659;
  0xed257563e24ac28cdec0e4a92fddf12169f045acdc76d502f02fc9ea77ac564c;
  0xf3caad2801f064cfecc0f55d3e95335aea02528e19d108e470a001aaf4bc8776;
  0x33b6b9050d3a704c1200b6dddf1dc5c8b53e6bb0a930f2d3e2f4c89b4bb77622;
  0xdac5173d69661b87d4f7f1e361462a7ee2c2652f4c36536e103b413e7656443e;
  0x44956a651d8810c526fa94f82feece5b08dfb6fbb7469efd0516433df4bacc52;
  0x8ada5e339ec6646ecbb597fa79ff50e62f5c6e2e3b179c1046e1ea95c6858253;
  0x0f625135d9c09fb322950cf48fa841aeffcdb752ec05518d847dfcbb2629ff82;
  0xfee5471713b1fd747a98f3227b0c32dbe81a963e6738378a7f76ee6f25c6107a;
  0xd1f12586aa86e5d676c3d85cda003fccb57d72b62a5d4abcc69682ae24f05625;
  0x233f7f311749c03a54aed14f60cdf6056165b288c825ae5d153ef4701be2e4cc;
  0x6536fc7db47754238b5fd0e000c38b5670535878975c8eac645f656e5f73c2eb;
  0xd80c6974e22f3e7e395386499eb5a2bf2ce32bf1fe483f1829424b317e0786ea;
  0xf76aefdbf46173a2ee0544fb9399079cb80fb3f718517a50c21e4c893f1bb18d;
  0xc72a6c0732c4d9d51dd2e490ddbc82c0f6647068022e62295e3340befa51330e;
  0xd93f968b10ee5261b32dd37c41e442886f737cafbbf4d650b1d12ef6dfcd0984;
  0xee7bd53ef701bdeb8100d5c93fb6d66358094c6a29ff1442692d12d2de19e9a1;
  0x59bdbaa9b41c3192034519aa2c59f2bdf4911acce5f67a4c4b6ec2e4ecbfe606;
  0x55a5dec3bba4b20008ef4eb3c84d1b886f0cc944dffd8844b4b0f855190d99f1;
  0xebbe50bf6c0e37e9deb4557a53f8eba25a6b1a76b4ab9495ff8381ce742b3988;
  0x166be02c54a618094abaa190e59ddcd58182e41a9e1182ccf920e8b9d1808b0a;
  0x82858d556dfbeaa95506b93f3fea936d3d85dc98042a7095c048b79765ebf141;
  0x4ab64c053a7516d620168626772364e6e49e61758768146393ddaa7cb9e856f1;
  0x3b44a9bd0a0ccad01676d37b140a38ccc03586a82e446240098b2fba50967118;
  0x9c2ec2a1b36dcd4174dc5c058115e0cac843d263c6b79e999b5b8068d049c0ee;
  0x36ec29486c66bd9263bf075c45d5214e6b1565a763a185757b6da0709d3bfe75;
  0xd982607a9c558214d8e337e0dd770dd6b1fa7a27310dda1385813458e8c70f46;
  0x9abdcdac17322f63a53dd149bad163b25e88f5de86fb6b5f24a33c8ff93c201e;
  0xd52fbf3aabf115f3627495cd134f4a2f871f4bcf99c1abf8708cf12382f26d93;
  0x3174d487a87e84374fbed6f73feaaa71d388e8f4374d22e38195bf4097ab9bdf;
  0x62c0045d19a4327f7b3c83731fe434f1df6e3ff820ae626e50a72360ca1d4c4f;
  0xf3554b96365c1f1e29da173f7bec14dfbf8e53157cb140b1d194818e7588e933;
  0xf57b93c7b762f1ef551adf3d7f4891326f484c4c969f8d92cd91c76f8569f303;
  0x182b36723ea763379f57829c3b1e1a9f31111a217d2f64fd7b584d542a16197d;
  0xd67f25f5a788699699c6764fe70c8fb2b259ab44565e8453d3cbc76b2934eb08;
  0xce1fe4eb95d075cf8c435f018c11afc70438a2090205761dc514d2475e3fa9c8;
  0x7642ac04d948b5cadc1de764a98f6b042bbe03fa4e1471d48113fe759d1d4166;
  0x66ae683a0da434ae7d024c042eb6f797b404f21df43ddd20e6852d56c2db3d9c;
  0x025d86d6c72b8537e88f0d8d80f7cd5973476daf7c7eab6d6318ffefa5a12aeb;
  0x4657a568ead8f0de02b7847f9c772d98be7069bdf21ab70051c74058cd7502ad;
  0xcb7534a1567537922f435ce7824570cc917bb3503014c850edfa865a2b994f9c;
  0xefc9698053e5b33701747f0464206b26a0d1586b4edc30198fa01597489cdd93;
  0xefce5ead0b771573a72fab3fceb5c9863318b0ebee24b8ed15f14c63b9553853;
  0x778f0ff6821b49a820274700807db6bcc5062651056876ce6bfd5c99280d71c6;
  0x7d07f64ceeec6a9f7da03656d25feb9993c63adf4944fa98eac52bcec46fd78c;
  0xad3f84708899d59ad1bbb5faffac1984f9bfcc7af64c40e0f747442f586a5be4;
  0x6b517179f5900d8716e5771cfafbae3cde70476b9afd8302b5071c8ff04c9251;
  0x153a90c40cd5b8e3b58edfb63e5498d3e021e531e712b33a2c4a4266824a9193;
  0xdd1e01af1900575cfb1e5d514776d5b175e831c112db8fbbe3a807b13fbc2a7d;
  0xb7f5e7806f69ffa82e390493677441d115b4b92a683fc7937762831187a017b8;
  0x5e9246253240884b91bc50489fdea13714169e439202b7174068ff70736f47a6;
  0x02d9169ace21b2dd50bdc5bdf4036e799db9b6c80f3129ae4b5f038d4145e532;
  0xcd03bd45bd6ab37725b2251bd27fa8b59177a84b7f8523402bcda8c3cbf479da;
  0x55becaf4b682dc4953df082494b2f7c3961f1603c6a3c5fc30fe752deeec125d;
  0x4e19b1d179dc5faa9c8f2a59b2adb843110f6f7e3f896840be6f8fe143dabfd0;
  0xf03f8c47d3eb4c8f0846b44dfde3b58dd9af30fb486ba7309495542423b05626;
  0xaa543b76367fe3696407ee47e0cde63e3a4a0f3e5a6c300e7fb9ee68364bdca6;
  0x6b4e6be41d16e6c8de27999f19d66778a1f9fcbc992fefb56b05868fc6c31b9f;
  0xf82a36cf6a8cc527cb82cabe6283ed14eb652f4056937b7510309e5e2c595340;
  0x4eeacbdc28126a2ce26dc8d7516bb943d5245c865b03a2c74eb14e0cecd34fcf;
  0x4c9ccd14747fa36ed752c8565dd837ab692f9cd1ef9f70603bf785a32e1a9d23;
  0x248188626059298275a3fd2d4a40cc588f4b82296f03310a68785a2c5348899b;
  0x8cbbdcd70cbc0639ec3679813473ea462f02c32a83e1df998878ac9956fcb9a7;
  0xff9544b103442956cdad9a270b292a4e237f17dfd0e81941f62176bafc619ef2;
  0x52803bf0fde8bd9fab1676e1755ea33c1abffce9cfece42b2209bfaaebfcad86;
  0x33808593b9da14c876952cb12c32847108584cf982022de2ba4b56c2585d9e4c;
  0x1ea92e793ee72d933b4f765ad8928fcf90a67bfe4c3c7df1c26781e74957adc2;
  0xdd4b772b018a6ed2a3c565b6d9bf704f142315f51e674f7b36529d6f79ad6608;
  0xe05c7e97ed6fe0edfb56cfa6c25d3fdcce641a423f270796913555d144e240eb;
  0x5311a5ae88a61ee685701f41563c4820836dcb6416ed980dd4da396a5eba12ca;
  0x2cb90a2eb0a29e4a6d5c6ea36fe96777cefa542199db60cac97bbde624b83316;
  0x3fc7d390b6cf60e689f46c679aa5a22bfa4454b3773f3a1a9a9dba2bb640a272;
  0x3f74ebfecc5a50fcea5613cbf4ccd5d5d61b3ba52c077f4788c5be0c8fcd7dae;
  0xde15daf50bf3da2a2842f6db2131943638e7be4d124c3c311e55001e243b91b4;
  0xae38f6e46f0ffbd791206e75549d7dc3cbe17e640518e26ff3d44bc3420e15fb;
  0x1d992be5a04c7a4d620f972d9d33b006ab02f64139284d9ab52d8f5d4adc709a;
  0xeac7c8142d51c644020ab7d81acadacd8abee31a0e9fda831ea9d50f9b280751;
  0x5c41321ee55434d8cd9fc87e9893a17e2eca1fe99af19415189f3df894205f91;
  0xcd17c2fbe4e6c7557f0fe1f23dc1fe9206052dab46ec210b767809f43d2dcb72;
  0x47933159efe85151f3240c02cfe9db107bdc9ef8ee41748692baf0fd1f816f63;
  0x0a9ee4af586d430e7f57eda0f43e5957b1df61bf90e685b33771dcf62b3cfb01;
  0xaedb4847a31661f8e03fefa5ceac73c4836b2ecd891477065d587cef44e5615d;
  0xdc542a1e2aee474b23e8216815d367e81ae856e7a11da7f72541b396406e3472;
  0x1a2867f7a7d3b0bfbde33dbcea8d9f4bf27e890bfe4a83a1ea0fe81faec6b6c4;
  0x594637d4904d8c6e600656a9a3450015b4be2e29535d80f7ea368dac3b043e33;
  0x815604c1d120f2c6f05448fde155b25686bc43110f655ca022cbd995455b2039;
  0x22ac41d749455f959273a4b9a44cbab229322f3edd83fd95d9eadeb9c14ba2d9;
  0xbfbd04ef5dae6c925f18d9669530bd70632df7925db6b76113eb94bc807ec672;
  0xed7906676ba1eed37a1305e0dcabb4b43328d9e01c5573ba9ebe136f91795fc7;
  0xff62c054a082e0f8518b268948817d157310993077042fb8411e073d1b9b0b01;
  0xb55d56b397cf939a9932abf3c2426ce168345a255fb5eca240d9b0fc7443f289;
  0x3e7911d997dfff3894e9d43610b478edf89f2545e15d1bf133c957099e7545bb;
  0x7ee1a6cc8d55935a46f3fd09f41e84d5b89c815cc53efc7ffcb15632aafeb8bc;
  0x9d8bdcc895d4d07a79ad60607f80108488e9ecce671bfbb494297942a9d0218f;
  0x1654bdfdd8d32bdb8d1b7fe3453ef5a815622ce1aebd4fedb51b21cfc7a087cb;
  0xcc0256ecb3d071ad8a3574f64600af31df4461d380f06c2787bfb0da302dcf29;
  0xe47980f3b8ca868d5e1004d3336b64b6e4bcd93223887683905f38d8a829b396;
  0x2483e5e309e3d5837c5ffc9f2cf993bd0f7871d14023209ccab0bcc4afc03e01;
  0x8ef828d7403877d03f875630f152e77d5923c2bd734e1e0e439cb737d4548e9d;
  0xf47c92d2b5385b07a43a46a766c56da36b37ac541bf22ed39d26ac3b62ce21d2;
  0xaee655732911b671d7c001220ccbdfc5159c62d9d287a1faf2ba24a668671cf3;
  0x795fb3ffcf0f253d9a707a53f08b3cab9bd65b9ad77cee68bcceb8ce60f0ea93;
  0xa6398fd4f3ee5c87ffa88ed67fca9fe5cccaafe649a89d11a0477c4df7fb66ad;
  0x79b45fdadeaf00ba6914b71ad9841f682404d552e1664e953db0e8b82d8d3cc5;
  0xf380fd5053910a20693bb95f59eb59e2bf883848efdd829b071f2147d658d042;
  0x6187faeccf482c226f9fd7c8fe1095406a5dfb9181d407ad2bce357fac3f938d;
  0x307930c9105acb44a8276169324002c094f1d3c220823ac2a75526f1d67fe913;
  0xb62ebf691f1dd4f8e3599ed5aea0ee1754a13b2f6f6db32368696e8b3af953b8;
  0xf6547aa4a9b9d8b38c4586d1a351eaa2c8f918e2421ff9eca509774464752850;
  0xacff4fa9ee26c032886f7ee458a1bae61fc13733e13bbf01ca5c632efbe42bc7;
  0x793c691c0142fd7f3c53345857818fe580e5d2b057793b48841e3f10d38ec439;
  0x90edfe2958539372c4c9546d0d1d6e5ea581ed536eb56e1b5b6293427b24f32d;
  0xcc45ad3b66c657f642e15e40154f92dae7ee9fd43374141a03113a764bf47cd4;
  0xb7cc73713610087aa2de1c16f549e6b31b00e199ff3ca99477bc996f88a9acc1;
  0xdd8192236b907d51ff8bb05c791c35080d5c4ce173cf7ca28645f6d35542779c;
  0xddc9d81f68dc375d3dfb377f6eedb6c2b062d526ba0a470ae6867f5747d5667d;
  0xbcc93b360f0205c433b35f44baa97a1597e5af27e2e23346a2e18c6aa1e14e14;
  0xc69d83b27674a05ebc03cfd775eb7b99c3beceb398700f6ff71cf9fec46e791f;
  0xe05387b1bc47405be11de91813633c66bca839b5b2b4606234eaa3d68cc48f17;
  0x5b4ae9a653235a16207f2dd1df4153598a6c208854fb7ed0c5b6bb32f46212a7;
  0xc7f96a108a52df28b8c6eea6f234df906ccb942134546a048a1c094820448531;
  0x8943eb007956669f0b2701f84bbc94beabf278253d8c2779d095a5254c0cce7d;
  0x41abf702c0d750ad2263c0738a62748134bd746daea31e626a7dee37946f381a;
  0xfc8d10b4b7b9f61655283f5f382f4fa6f55b6872d2a62e12777f3c843ccbd6eb;
  0x6217d25699158070a868a547feb4e8c5679b44d8ecbcee9f296befd21e37aadd;
  0x883bb3840d09098d9e19c41433b56d2c836959f9b486662ff57c5e09bef41ca3;
  0x037fa20887f4adb63dc02514d8152aa6ff6dce9842caa690ccab57b9793d59bf;
  0x847fd97452967b7cb03b52f6a4e4710c0bedb0f12ceb4b2ad3c84f3afcbc8f27;
  0x778b1e3545fa1daa348fedd049e1184a0879e941d6656e1d8b2b1ba50bfdea41;
  0xa24bd2d9133e297f5e7235ca13fbbeff9ac6c7fa7b0f5670ad43a0c2b78ec4fe;
  0x6bc0994b21d8049abccd685f180a16279040af8d014caeffdc208b5db523f8c7;
  0x07e3d3d657f2311467e78446577687db253e495020edf4bdd2d512937296d95e;
  0x8d1ae5068781c1f746b295e0b1db6749f3ab2ae12d0651e5337e754a1300766e;
  0x8476319f5d3a7092a708247f1fe2d6c4ddea8bc5eeaf2a1e24ff19b40afb3d30;
  0xf58e193be3aed6ddc7a475dd0962ffc6f395989afc9377abcecc0c4091c11efc;
  0x787b41c1e2cad083f64577fd86a6d02a213c00ced90d7827a12c47d0b9688296;
  0xf885775c4f1700db6b519bc360d7285cd87166964c6c00080f737deb7081e5e2;
  0x40b354501fe51913a9c0210f020fa536e6bae4e1fad04401e5a3a87c5f753968;
  0x5d4c0d5b91a7b138d4a5987d1d5cf103df0b1f5f94a978688a8b410924512f06;
  0xdfeb8b815bf93b37dae01ee5658eb93dcf8095e52bed6130bdf3d888692f7ccf;
  0x9f8b0ca3934fef829d7ea476138f48ff01638cad71f15b070371083e18a8918a;
  0x4294fa9a44dd246ab2e08ccdfefa34a6e24d791e8aff00bf42d9baac88e220df;
  0xb298e322df293aeb865846bfa8d308394b27dd18fae2b480d73bf62b701d8cd5;
  0x821e4c35d2b062d7e6f33d5e486a5de00eeafbbe7e8fb1959fead8cf84884de7;
  0xfcefc1d07132d2990b19823354e90881cd61209a23cd0f064a5e98c24cffcdb9;
  0xfe09fc61533f9ea494238fff50a2649072b955870baca8486c471902b5e38ac6;
  0xbfa0e0a2deba066238f1e32f2827eddb57d8e41c3fcea72434c1f6a3e657b669;
  0xf47af21c07d427c6fdf324169323d7138c8b0d600e9b8bf66975e2b98dabf3a4;
  0x7d6e9abf0c19f9c892b9be6aafced71543bf1dc897063e4f983a7165a43f88a8;
  0x1f6bd9e49f4ef9d884571defdc7cd4f3f0d3078c1b4dcfc9e0ebd5deaa9bcfd3;
  0x779743440102f0fbc2559e852e3699f12ef0bd71e91d6e1a9d291f5de4ef9f46;
  0x115065755c564626e1e6025d601ee7c759515147b232db968cc2be4298ceed4f;
  0x9512986ed043089728cee3dbfc03fd4277bfe4ca4b1fc4fe03b33064c2e0ef02;
  0x963ff9700ee8e2403c34cbaf1ce3106716412710c95c2b889ca80e45c9bd0c23;
  0x2af80c8f7c7b312725b0d786a13256e020b96396b78436023457b23eb283e9c7;
  0xac8307488e53603174223ebabc1c3ed48822f931bfd90cddf486611888f737f3;
  0x2b6d35bf557c05b081ad3fa64dc3fb51489ab8f0494cbeb2189e9e9901701f84;
  0x642b777dd6ae7745aa387c00bddd2a8082125dd88fc59924a85ad8b07458b149;
  0xaa8aaffe776c82fc3b86282b012bf17c04ad5a7f343c8fdc66de8d53ec50ddfb;
  0x556d873955b9e01e4986ac6970547fa5792d36de9f4587dc0fc126062c119d96;
  0xbbafb6ae47f32d4bae13143d3c04ee5cc896ac12d8acd3612883570c29bb241a;
  0xa40eeac04af3157adb3b410be48b12743daf658a646301c614330933cee2d869;
  0xfb550523f0dbd75a215466b8cdc0ef0c20d170f128e254b992fb17ec67891af7;
  0x16412676630a552aad99b8d3853ccfbe27d0a4e04754cdf770a1424e87e6092e;
  0x55f7152a6788d0a8365a3e34c9eea937b6e96baa109d8619a4f2268ce8711197;
  0x73da63779f58fcfadcf6301e47d0fe21595730ef8d714ffdaec506ee7666e231;
  0x4ac870ade69fc7fd749eb392e33f43af0112316432d67ebe76256942c1e81286;
  0xe194399844036a5bd363b5e11b1a4747187a93acb1145c5b7af7c41f8a53d0a0;
  0xc6bc27f13d853b726d7d7c63271aad54ada938382dd1fc1f7f56606221d30d07;
  0x13afac5e6132689c5306ec0da31136b9d20bddeed39514869421ebca86fba0f2;
  0x88c704d120be82e706ef748e8597b0be3b81016aa557ac1e00b0e058d9620fcd;
  0x9c5f6a8478012141fec67c716fa2d72695db71674213dcf63b007c7e25a25df3;
  0x1b2826a1607ab820dbce13f8669706e320032a402affa9f52a83ff1fced3019b;
  0xd626ce59fb290c8861f988963aa90fa51b3a8b987e366a83dd56932cbd08ada7;
  0x592148e132610b9ac762a196afa736505605f3811f9546a3c80598d1b7e93c04;
  0x3228a405cdcecaca8cebac69a4765d889c5bd32999bcbc2f6a43eb0c1b13403d;
  0x504f4c99daa5ae60430e1f045c0b04b67541ef94e4de1e18cef98e8d771593b2;
  0x67cbf1f60a810812726545545b6ba088cc8769d231f24a68abe99d9281f8d6bc;
  0x77fcf2f6ec962499d26f7f0eeb9798ee2b04b41f85c697fc506ed6c74a1bb9bf;
  0xf4b9e8970356f79fc6dd314b32e7582f7fc60707b7972e6b7878960d6b1599e1;
  0xbb284fbb5b2f2fde947663e3853bcbcf8247a69f84d9bef8624e2b225ad4dde5;
  0x548e0eb4cfba633c36ab4fb356eae7c3537fde7b450df365608ccb5f75df776a;
  0x52138bc258f18da115c808e27b83fe5076a2a1f078e641adb323e6fc1ac04709;
  0xab922b79e640e5e85fbe17e7b6acb9ef720e1f06a2a977970dd4ac1a899c0a5a;
  0x9eb6cbc71b892603d036a73749db81ebeb25cce97ea508f1fd54ae12e18136be;
  0x4b79a7ea96008b8eb14c669834cc5149de9e6f6a2aa6de88ee3dd98a0f5574be;
  0xc2af64a0e6010661229ec7757b22c8a35d37b45642f3f9bebe62ab2d07a5c955;
  0x235f7948343c070b772ab960e1f2a8e5c7260c7f60b34ed5943f4103dbaa44e0;
  0x3796f8d641970f0a0cf9dbdb1791c9e84cca675d1252d51377ff0a13943c202c;
  0x68d347ee7977cf825af0f009f29b08ce6c431e2805354a0ee605c9421f506407;
  0x288548128dfb64c643e00fbe1f84ae2e144bececc6ff8f1e4b9d4bb5ea7fcadd;
  0xd3e35902ae996425fd6976790fa82fbe6c466ca9198c6f754466f62e4ce396ff;
  0xb46e85919ca6ab51a2180b7637ceccc36d029ab809e356c7ea7f9ae072059f06;
  0x78ee51becd4efb75aabf26f0df3f227e41a87abc216b04a94a97c99bcb652762;
  0x03dbcd692bac412f5d349a18de9fba698d4c7b9f6049d0661fbc6e9414ebacbd;
  0x7f1a52bea877ab5fc1e71cc6a131048ffa1f7c0089349837dcb07734e62ea016;
  0xae6e2ab6da7f604f03382202d8d177c38428e50cd7e93ea5ee55a314d4231722;
  0xddd47ee5ea54989558de4efdf5b3254d6a3df2eb2094af68f1daa37c4cf568f7;
  0x87a2c4700e408f67a151bb67dd7cdc3566801035c1e4ac3f42e890b968178f3a;
  0x48ada7044b5376c781103095343258478361cc206ae23be2fc1b7414dbe20072;
  0xa181e417e18bee2daa2679bc7ea768905350e572bcec84b758337e313933f339;
  0xe3dfd382fe62d18e915e35049f6e4ac38e6d809c393d3cef1fa146e2c904e559;
  0x555b50a0512ebecad8c36feb272c9077002d3dbe100f234a61ab5890ef9ec9fb;
  0xa4c298d94161d68f21a9032d8ed5a85707aad08615cae3cbff45805722e8673b;
  0xfb8b778841e2dd13751e72e8361c755555b208cf7b4b952980cf29a5ca7443a4;
  0x03f9f664ee3180a889d0875b7fb4b7dbf446c378c4115fe58e16ab6dd95ed471;
  0x586c5778c0714dbf2020f55b8133baad41dc65d76445166e66d2cc5ef7523322;
  0x46d6ffd1bc2fe8427c9ebe66b675eff142840aae27e8ac566ea6c227ded82bec;
  0x2200ecc961e65afd881fdb38b0f55179ac0560b1cdbf8ee20d6d448a3c9c9288;
  0xefeb7f3feaa0e68ff0a3598b6c91723350aeae09686b5cd6dce4cf803997cf45;
  0x9962455afa801e8da64fce8ea3b17ee3c35bad17ee2297382c06582bb54377f8;
  0x36cbe667764d6c558d6a71c635c846af050278581c5dc5e0c3b1b85414a14d65;
  0x9c31fcbe3381cc0f6d3f3b918e085532ac7ca6c32ab69a656549b9b0aa075fff;
  0x730f52814aee2d2510d4de0f5dd5f7e14a48c2a53f8d067d92d55ee57ffc6a8c;
  0x63fe0d6d794152be3127ba25f88899da1cbfea0fcf0347940d93a36fc1995653;
  0x38bc0b610960c51208250f8157bf782ff657c7ce98a0e9b477f8a966e36c6679;
  0x1a8e10d3b9c2d0ebc8a1ef95f0b66f4ecb40fd0aff76ceca51fc7e94eef150d1;
  0x2267ec5531a1312acee304209d766f696c932313ab55061d0292422911a19fec;
  0x9106dd9e5940668c43d64120e1575b0fe6ad23f176e0a4c708f1fda22b098c5f;
  0x9419842c984870e9941ee2b353d3f6f0b01123708ee03d85eedea4db3fa6f392;
  0x437ed5ddd0e8ab57445b515d54fb62ae929cee85619275a7f0d343dc39f39766;
  0x662feefbbbaa05afdafb7ef650c64af525f2e22048852f8bba33df3b693be527;
  0x08f8f39dcba9895345281a09f6b3e6a5fa9246c3b407cbdc6e87221d20bcaaba;
  0x9db6306f4fa4586fa2daf0a6927a97b7aa0d07428e72f93c3bc0c6475a469327;
  0xc9678adb5919c425fcb2cf8c34649e75784c1229f0f1b504b6efbab5883b4ed3;
  0x68a0d7fee40fb02010921cd16e1dfa48dd4c5b48e9babd2bf8c068b8ebc52e5f;
  0xb2e9f03758a87ec50ade24a2e33ccbdb9676395dfaea53c7074a33525fbb2c5b;
  0xccb732a39582a75e47a9b7f197ff0e89c76c614ba4554fa6df479dc66e0abb7b;
  0xe02ea25517dcfbf1af0e5879edee7f9c38ea54693e3210feca7ff110cae52836;
  0x5dc3beb057e7bd07a3cafedd6ee5c644a173dc3acd2c5d2a924d196d13509aa9;
  0xd87064b0a2aefed6e91303a9452835703e86efbafdf84615d13ac9333f113c1b;
  0xa8dbaf116a499b6d5ad016ce7675a8ea445d291ef638e61966f681a60fc2af13;
  0xbc082ca166d826a3774149dcd4597b2788ff9aa0b515f12d5d9417dcc914fa7c;
  0xa851d28d70382ecda856d8f6bc920d102d24b82164431949e3d8eaf1b66c7f34;
  0x1fb2942aa324d5e2d1f8e432d811dc64ed2e2f58c29d02b924984df8ecc6f5e6;
  0x343b958e7a66c0269e67bc8864a87735587a9e9f2170bcc90ea048d9ca36c47c;
  0x01978b3246884184018fdc0d5cb6d8a2f13422086cac9fc9647136750a816a1b;
  0xcc3b42f4a459bbaa33be34baecea28b8266a4f19f55a70d79532ac3a47abd3e6;
  0xf369625f04469d0827e0f718b5563d7a605ba27276b13e0a4714f8174b378ba1;
  0xf6a0e63a3c30106a0150e6426d484c73a7ab7d29a590e8dc17dfdc6de4f2d6fb;
  0x7cea2ec78f27a90ce6b386ff3d0b4feb85f55316941dbbe59f7daa755aa9cff2;
  0xfbaa1cc970a95c5c0131b601a538a3c2b1fef83752205770c61e21a634250eca;
  0x146e160fdfa4a303fc1daac18101120c68e3d06cd0b9c2d8e39066c00aa105ea;
  0xf90eceee0389297a7a2882c840f38ab488f815f2937f984eab183649701525a2;
  0xdd53192d3a6cbaf766cc2ba49466db685143e92da2931bbf7f7e35d72f3bec6b;
  0x00b0ebcd2f6793c5e44cd44f076973b9c55bdb2b4084c96ec68cce36d5e09a29;
  0xa966a5e42b9f0a3f2be1e752c282d9cf2769d69736890ae4f54d5db7d12303c6;
  0x2cabebe5ac01308785a5a207b3b2c12fda18b600880b1fdcf2cdc9e2e831a081;
  0xd0d9d7a41a7d88cb18bce4249a4775207e170d0a348fb77f7cb8c55323df4bb0;
  0xa4dfe80af642a09e19bc29f7269f7317357a1f9c9b3d924469190c69c71b47f6;
  0xcc21c2f2bcd82ffb59b2b396b678a0f62f01b1d9f4f83bf6b5a6a5c20a88d4d1;
  0x0a3aa6a62af8720be4b0922a3f621207accc4e56a1a0b4a0ccc8625be110b9fb;
  0x7732278b3d8c5c32586806caffe2691dec61e9f0cc388f7f9a2836cf15ba7693;
  0x7acf29dd4836ae211881ed6e6f7e441b241569fcfe940afa168c8d4a419d9d89;
  0x6b4a558c8ff7057f4df94414bc60284a3dd75c57d2d65a4b45f61246ee8eae47;
  0x29ef9b780e0a213fd814631ca7805e300764d504a390c5d55e2a764dd927e06a;
  0x0cc7e282a6f5d15c202319731cf3a61a8b4736b6690ef6a51d252d2d865612f8;
  0x041a8411565b399ae0a9182ba75b1e4207c09db5fa5ab01681f1fcac1e510449;
  0x9d4e085117901a2bc89eb344c1bfb10d9e3c4b754ea060322fca37195b5e8c3e;
  0xae3dceb64d3a19479a99a72e18d343cff537a6ed68d4a4b655732c23c0f52665;
  0x863ed619b1be609b7d851310c941a671aff15227b6f64739522528ad10491a36;
  0xb49a421a8f906602146f50a20f56338af071aa4b10408c181b837e6f0c2bd694;
  0x7b1abac2f85a6b557cba7b984c99860f4b8c505b864e903acfce1f2c917dc32a;
  0xbc06ece11ece6548fd7ce357ebd92aa13a1c99dce2cf3f6ad8fa5093fa8eb612;
  0x71a7ecce6ac173ebbe75bd0271d5882662767e654717ec5d8cb6b00d07455d49;
  0xe4fbced96d3fae4f3a082d692870b73d93c5498cbb4ae770fe0b9c343b345774;
  0x0c3d05de67cc0276961b2546637fce5f2998ea3ba6d3a05012c44ade27a19737;
  0x16eb28f85cb12c763abacd9d3919f77730dbebc3b80f401dfe64132fb7097875;
  0x23b398487be8f79e26bf22d0283c385a4979d9f767bcef6b7b3b6cd291648d1c;
  0xca6f07fe029be62f0f3cc4cb09cb14f46c84d16e124589a96dc2fc8077aba57a;
  0x69abb0306d44dd9e9cc22ac23a5a137603cfa9aba85e9d1589d2848402235f49;
  0x162decc0beb383182a8ae1c35672a25e6c8c61fc301fdacc1814ef927462e14d;
  0xe8c4daaa0d713bc61e7af16e2ae480a2dd3c174330cd1360809f89e73508cb4f;
  0xdbe356b986e0317be3ffaedca6636fdbf77cda2fc0ce099545d5f5040c22e600;
  0xc73f6e4d00c4f51d480c4b9d09a01a6d9517fac966ab71895791ec1e5b6a09ef;
  0xbc2a5bb1443aa59924edfb6092008701173c2ade6f733ec91d7cef3c0998152e;
  0x5aeb6feff970cd4ea5b3572b4ba2a6d94714f7e44724a2381e7e13048c0768eb;
  0x7fd9333bd718a3fa4d9a6588025f13a365cdf2acc33676354848b88eb7148912;
  0x1d135139ff60895678f9b0a770a6bd6304b9101f76d8e53107cc2234e2d6a384;
  0x8a1d12b26564c568e12e636be7488345b8a01a632fac8f55b5570e66bcbbe6f3;
  0x40b6d1425496a4afaf9aeae8386b375546f9919a861b45ec537e559bce5b1a7f;
  0xb4dd504fa40663232af12f5e59b7468003eb7e87cfb39ce601ac82e9b72d1be7;
  0x71523207fe004f193342db955018d86b922fc7478956b33d67235a35b62ed062;
  0x306eb625c984f0e96865f345d219ed1ffded0c2a5035ef9b2425ae3e00ba5ad7;
  0x12c3ca5cf73032404d682b053079fea0931e1a99525c12c1b97b8d0a6efb8ea9;
  0x0ca86a81809da2b5f89453a2e4c08e93d3009ab4e3d283a52e2a48f1e1024951;
  0x51e2d410c5688ff8d9001be9140bea13ec1ec6b650447a57fece7c84ca2324cc;
  0xeb117dcf2a8a37721e206a2566b522afb394499d08e65fa8218c0d96cc370a25;
  0xd9b68a9a4af516f206ca42a71ee883fd06c65fa54e0311e7fdd054e15216b62a;
  0xe23db82a858dd5c0ffa4acf3b7fd1aaf7c26691f75da3ccc6be40b87283ae058;
  0xa774a4ae56e5a582b8496710d0bf0ff082ef2b22fa96dfbb4b0392b0b0f9b8bf;
  0xa485f88526febe23503f7a1939e04935e94f7a8ab901fc91347af113bf208526;
  0xa961f3d19633c72d760876c3d975355a87f2052375e052ad907d01c0b3c09706;
  0x82dd092d5d15a92482e6cf80e4a3be3accc4d97603d3a922c274e9088b6a0d40;
  0xb80d4971414735015f30e8156ddd8067fe994acfab2fdf211a1e43e5e922ceff;
  0x4981bbfd792b0b3e4564799417263d914ceb90ea9d77b21a5e189ba9ae1d1e6f;
  0x5ba781b199e7699a834c585f0ba5853dc8fd7245a7bb616c913f1fef3fea48db;
  0x85eaf9a98a7d54c458deb89ca56e183b3ef6b0ac244886ee295d01ce1c5dea41;
  0xf8370b5a1369dd6398e4de5c1c3c3bf649489ae737d4524be9c669308f823340;
  0xbd0319ca1b76379670e9ee30d303b3dbbeb32d1d77b380f4b514e0ddf7cd29d2;
  0x8f45a2dfe70f940e8f53ec45c2db884a11727a4f6f79fdfc9e56d87b6a31416c;
  0x75ccbe1b1ff108e3c583ac44e2f018ed5dafa05ba5b572791682e4479a0ccc0d;
  0x82698e23133c19cf8f10283cf007687d2a5245e5cc158d9f64307188337c70ca;
  0x7aa1efb18e05f274c65bdd8deb2f8c8e464b82eaad405e188bb003a801b05b9b;
  0x5db78792bf529b7eb893f42ae9d035dd5f956457db8385dbca0f517e7c56e33b;
  0x3cf01dbcc9186f7874944bae3d081a0bf2e1b462854ffedbd1bf7274b1013b79;
  0x879de268e55bf84595642cc3329c25aa29e46dbf7678387f91575be5f50ee29d;
  0xedd4bac664994af93b975ba7dc738a88ef222e408e219dde625e584f5f6a9f79;
  0x75229ded72b482aecc27624be4d13009f98348d61ab56204d6951ab611532c6f;
  0x2ac6cd47e3b4b681115f90cc0e0aef53fdb70399fcb8be8eaed83adb1d8041d5;
  0xd5c6332ab0023f305b4a25309372e9296115cfc7511d936ea7061cd9d6439b99;
  0x7bced6589484594699ed9676da997531ae120ef210c2e21364dff3a5cff42975;
  0x417881e93c45ba5e903bc66266865a4d618c35fb203c031a2ff091f55a0aebdd;
  0xee9b7fc9d446d36c1114a81bb1eb00c2b76c176a40bf445e6418d671c41e2eeb;
  0x6cb25f388d3151e66403f9edbce900022a69ca3d2d1c67d571552869a70a2993;
  0xbb5e8cf512fb52843c43b8395bb16d64aa327e1ae666dd8d2df62f49727610e8;
  0xb622518c9d51aabe4a5271557e9c611cc4e52f24471b932816c2386a44fb8465;
  0xe54f6292d63005721e5394a23510cfc0e39051b05b73c9913b983b21637dafa5;
  0xd8d3c0ccc4107cd6e1d0872384c303ac17c986cb3018ffe18477ada51ff4e985;
  0xa95b6e541d4a58050f52f1a006ddd228b4b3cd7fe358c79587e79693d18d21ba;
  0x5acbb7666a6d14afc7d978209449f5d30b2f6a617fd96f217d253560d53763e7;
  0xfb0dd2c5cdeb3f3074b77a411e351fffc1fa742395ac3c0675352e2ad0245209;
  0xfeac6974d7e4bd8ae9c8a70781fd7d1ff8e2baa8b52331ac712884ab53200de5;
  0xac1cd9691ddde47d56185b16d2e30cd71f4afc7bcf67541da0406e001e1deadd;
  0x5703cfa9cd6be9f8fb246f702f1ec9e4545f297c59538301555f20945128c19d;
  0x6d283e5f7e66280810de31947e053f989971c9245d13343f4a7c758ee6c042e8;
  0x2660583690b9e2318fe31256c39bb5ec58794c8606334a4baea5a760d2da23de;
  0x379123ae3f71a7adb161d4e40b49996f1a0f26f9b0b1db6d5fc9a2838c238eda;
  0x7ce91902985428b3d4358838f26dd381822c133cd03ab094c42f24d5f3ab2d80;
  0x32daa842d5481e4847f6f575ba8dba3f0499216bf21818fb7c73d2849b1ffed7;
  0x61a9154cc1f63d09f66382eeba7f80915a06f780fc7dad4c192515a13b3727d4;
  0x76f6b2f705a19a7ba46dd46c71a1ac3029b3240bfcab23e66546a5c2367a36da;
  0x23cdab204efe503cc117b72f901ef97d0fc8636aa69bfb3b30602b2707aa7b8a;
  0x2b4b960377bb68557a5d1499811562e31c6fc2e5fcd15a27c8d7f691aaa10010;
  0x11951e601df65cfcc80101f64906b3d4dd5e0a5fb2929ccac345685d895cfab0;
  0x6a9b46090862c646013afa31670aab4cce9ebbe9e76815d64ff107ea11b52f81;
  0xcdbcade800f796dadfdadcac2714a53f2a6dd6d9d05a2d60d6cb950b479279b3;
  0xb522ea7a76442335f99594365029d26f334aad2ec5a79b12fe29ca08ce6ca5e6;
  0x46140dd8f686ddc101629d186f608e75fb73eec1f4ceb12e2756a68d49c32932;
  0x60e6df1ad88c7e2ad75f464909044f04b28df6d909a9a5fed07b1227a066fa25;
  0x2a1f0e62c39d9bb307ee07935714cf5234bef2cdbad4888c85fb035bf676188a;
  0xa85e0520a80fadea08caf82342d79ac382ac882ad00cea56e437ca838791ed12;
  0x7a788c357d6270ab7f6672b6bcf54bb87e472b38ade23d893d4e247cf646f543;
  0x68f540c72200d81aa57c06067429bac8a371ccac33e9fd901101c5b0ef17267c;
  0x98fcd4c5fc5b6561adfe33898977479670745313aded1d4d8cf1960bf9577b85;
  0x6923dd8f3a0b2bed214d94072f50b8b532e8905a054d01e42ea4332bd77307ae;
  0xc86d49ce72dff53191c5b566790b67ea4cf93a73fe90ef978f082c5e0eb6ec21;
  0xf155b6ef4d2bb48d99b3fc881e4f4062d673c53c1f9b4ca5a019d5b237e7f8e8;
  0x40d373bc68019f15952e715626eb3874fe14b3fd83fdd7a5ada9766ddbf2018f;
  0xe76713351afc73dfbffc3c42ba70378fae0e65d87294485ad13aa122351574ef;
  0xc9aa650a67c14832bc2a346fdd5b10644e1ee15b403e1c866cabeb6d8e809c3d;
  0x8181a51f678758642dbb7b35019dc6a4e1eb4357ebde2061a05c220f4fe015dd;
  0xfcfc5be0fb6fc5a25963fcbfe58ea4dc2b05ffca5f75c1ac93f4d10427f034d8;
  0xc6164b6e20e5d7bc3ce09aec02bac2eb930bbf8baea801a12ad5bdcb7b7f149c;
  0x1f4accf5c8f25f9e24d6cb13a944b23d4b0da2e39a244cbc6af627cb70601f16;
  0x95ab38ece262d1068642830f62f12db66494f9a1955df354deaf243ce3ee06cf;
  0xa44ca09f3223850945fa940373f157e80fdba901adbd264c96d59630d45af467;
  0x086ab9a31a92bc511d35a1497e1f395e3a50642302983349708ec850c2e4a0e5;
  0xae9757dd96e1ed6fa69f41fa0c1643752897c3282647f5b6e1ed57924de030ea;
  0x20301e824e919095461dbbd47c2042fb5d80ceb3c4ea63616a2389468595b6eb;
  0x4b975b19b4bb5011ccf5e79c41c46dc2dff5d1ae496b87107d79e9af5709afb6;
  0x75ddcc3218b7d1871338e9d16977a3c07af0de2fad502447a6b8dac814f05684;
  0xfbc39ec5d0376c3c8f666759dd79f1043e8e3d5c0dae44075f481687f88f1b9f;
  0x4569a2d9d32fcd183649fc419a87ad56a388b8ff97ebe7e9b3d7ee383ece352b;
  0xfa2c9c8ccfe33d0e2ab39efb47e67a790e8d1d241efa3b78f763908cbcbbe961;
  0xcd25cd11c9416d7683140812dfbd8621088a5b35cf5db4da17f28eec6e92ba24;
  0xa889095b5c70f37ba720f2dc023244b8ab6869c4bcb048d60d1e3300d732d6d0;
  0xa37446fa09dfba1f55a1d11fc9914cc83206fc2b03f389f6a88eed9638cb1ba1;
  0xdb32a576a7d082402cdcecb9cfc4af82e1ba4f4dd1e5fa5db14d73c0cf1feae4;
  0x74283be933b25fb3dd7b23a33bda59c41ba18c2c3dbe83f1040d50d830d1dc1a;
  0xb4c127351a61728057ef55f7a9371c28541ae0df5b911edac837649aa4a3ae8b;
  0xe75f02bd10b59f110df0154e44f56cfef63b0f2f3a61df58d9873788b052ec0a;
  0x1e47b7cfc8030c6142e800b1e9c1e790c2e32ab7d5998b6d76b59ceb69f3f08c;
  0xe503460dec83bad2c58d73eb1cf43a49f254a74e68388afd91490304e4814db6;
  0x46556b9e1de94d73327b0331e83abe0ae8a27152a3406cb336fd150b7763a2a3;
  0x1936600c17cb71133c7e81232ee39179f879eca8c672cb47440fb8d0251c1773;
  0x69871062843d84b2e4e8c6f938ec72e899ef80f2a5538dd6c32313c5743c367f;
  0xe6f996c3f14e8759bf585b350e933a08c7846afcb4410f71017929941cc30293;
  0x814ea576b8c48a0cde64324e6053c19da4a4572d63e582d0e535417dc39128f8;
  0x81720bef5ba8c739fb4bf709c1a40bca56405ff0fb9208d257e7a0d6c08bc9ec;
  0x22e4a7a7c4206dcafceaccc6a65c18f5977192ab285e05498534f8ac8e51fcc2;
  0xa5e1f89b5e03f9bac9392c2a5aff3b8a2c0ca798c487389e104a38d2e196788a;
  0x68532098337b63b0ab78a504876ad2d3e90b0be7c7829cbad4c8201201bbd5d8;
  0x5ab90f85effb78fe34439056b65d6e058482dd057992435446382047ced4739c;
  0xc9a1e7a7e4e24e4a11773ef3be5d4a59e5692b606d79ce7757e802fa93379bba;
  0xfc07d7003697841d1193e89a0af9712ea225eedf3a472f6c8edd9ee7fdfb679c;
  0xa07c2c7766f39d3a503652c96b06d96123fd10bc7862f6bc4d8e1d75595b7763;
  0xcf32eaf38ac7e9c071223d1689ec448c986a2a87e99c464246563f98249c48a3;
  0xa950d0f572a04b38366fd2923a599904b6a79de4ab6b2441e0f50382101fdbd7;
  0x630ca7400735a08add13d017ad88224431f03403b533c3dfbb41e97274fd2566;
  0x4ad6bf42d76d9ba97a90b60ce6ff5bac84b23fd043e2c34a089164b4e264ec33;
  0x5e821b036e1cef17b37bae36d5e9d75a4386631fea3637332ecabaa2467e7d38;
  0xbc4165a17dce879570ab33a3ab5631fc1b9fbf4a9e9df30bf9c7f03df4f13099;
  0x54dd48964da4a8a8faad2a6baacf4db0fea45e1772e8468c2671323836943142;
  0x076183e6db76b18e441f5495067da2623062e7bc7a4cf1b03f12cbe470c804bd;
  0xe5fdd3085f928987eca99daa0adf1f20f3c76558a090761f83ebab0915e1211b;
  0x2f744b3630bfa06ef411d6381c465a7ee784cc76209b9cb1c4b7bf9bf2245ca6;
  0x42d9a0636873f2aa1f88c8a3379e8fcba7ef6a8caabbefabe4ef61020c266d6b;
  0x490d8498fe06a3ab9e79a75a765ffae13f3a773f2a9937149f7c87f4dfc56f81;
  0xffb0981bd1286c5088686010866bb5e17eb3df2904b31f74895ec41c6b7ed7e3;
  0x4bef7801f2255bbafd6f61a268d633f3b36ae01ee44f67511325bfa187e0a8e4;
  0x927c16ed8e340055ca1e51e27b8f7e42edd9ad05b5e84853c62e752e8d9296d2;
  0x02e2b662bb5ac9a4e278c04b516e8b27cba93af084fd0eb0a62b674bd9dfbe40;
  0x951120bf0206f78eb3a38a14cbc1b69b73c078d6a0f1b19d968fab70697d18ed;
  0x50faf44bab5453bb7532f04f85488ed35e71e879128780c42bd3d58878ab26ef;
  0xe5302976ad89395e9cc2cde1f3e499821d8dbec7416e21a786c976bf02b1bf0a;
  0xbcf38db8c02801fb9a9cedccb3fdc72beee6fe868f3635a570b9d966d44f5b86;
  0x181bda781c93c2f73c16f2bb85ed0de8fd6a55b7f239c4d159f599c658815b23;
  0xfb36230525b44e1a33e5546a755c9d2d101502ae7edee059f92e1aad59f188b4;
  0xf7dca43fd392422478d39ea86ff5dd3622afe49fe56e85b509576ef17be6568c;
  0xf9905cb8d47256c5ab7e30f037d59876bf28b54a80a8985ffc532f2f897f111c;
  0x92f6372e10e6fc69d3e11abc6847dd0952b556d1317c9c11121e8f2ed94f5b1a;
  0x42a6e960ba1dceb82162789f7fedcaffcb4413dc9b56f1d0f5a02f9a73efb019;
  0x6f7caf18236c57697a53909d22b10cea25ce62133611557f333fb712e232f286;
  0xb60e3c1d30082b8a66e41c4829f65553dc0dce8162bbfdaac197fb98d0c9d391;
  0x22bdf1abc9357361aed7a14a5e7f8a51fc2dbe78d91075b14ff25a27cdb4b365;
  0x2a34fe39b4ad131a88b9468fbf944fb6f38353e8c7870810dbe6dda0711d8af0;
  0x45b831ae1693a4710c394ead677c8181831b3c545e563517487ede5fcae80bf8;
  0x2fcfd0bed35c11baadbb21b5a62047bdebcac8ecc710d05cb5a87b1b34c2e590;
  0xa1751e207aefc12f166dc9e7d8eb49f900bd05929f485263ac502fa60c92e2a0;
  0x0f025aaaf299d1b5bd48844d549d5cda060bb8f4cd5d363070946eb2a0c67afa;
  0x0c7148d5a73997ffc8d78b0e3f429d26394b9ccce8535c3d3131c3c53b452617;
  0x411339fae0fd500cd16860412461407bce66028c600828556fcbea09800fcd26;
  0xd4fe8dc94fb37a9c23f3029e7c4e4727e75ccf7f30f43cb00162aa273b63baa5;
  0x9a37bfbb0bc2f59dfe678e0c76d9ca665f1890778447e8a161fb2798100f56cd;
  0xa7236471062b799670ff22c447cc3018f7a22b7404228a0e45f020cc259674f3;
  0x4f88ee5ad3361ce811e7f307e88aefea11d2682fd6ecb2a92a75ce4dce100222;
  0x7bfd5dccfc10e0b95577b618b6dc53cdba2bc75bd33402ca3a59d2f463d359eb;
  0x4fa6b1752255af02560bb780dcdcfbe498b41739ca6f79c43ade2f5e36df021d;
  0x7a3b4ed71c81f07c14a616160362a33f592b519dc484e0b58a9b06120fb47daf;
  0xcd08b4fe9380b0c8678f6ee5d26338489ead2f622eec15450fc2db837d700eed;
  0xd041ce2bcc9da30c6f26c20861a4fd02205076958a005094b7fe4d0c2bef9976;
  0xb3cc5b03a1cea9c811127c657eb388b9ee2934ecb0378c67b68e2ae6eff6f64a;
  0x948927c6cf11d419bdb668e65586bc046cedc20c1f9c905e3938f5b3694b1a8f;
  0x01c83398e44dd7f227cf3446a862052335971eb2af4456e5c3a3c81ee261ed40;
  0x116d446bf5988876f467c26c85d91de01674ff0fba967dcd0b35b50084e3edb0;
  0x07369eca47e5009c2f5df6f7448d7ed611ad950da3e3324585248adf653c65c0;
  0xaabad9fce9dc3821e984ba2ff0e45c08ca2efcc3b8a95c6c5891cd574093798b;
  0xd44f43bb3bfb8ad81b13c8ba5dbc6f8b0c3c7cc528ed3a0cc0bb2adb90692276;
  0x85dc03f57adf56f0b90fd51513988f9ff34c9b1dfb2ce1f06894e25a15333e07;
  0x3e452dab3aeda8bfa19ff997d69b4d09bd243e05f2dcaf9affdd17bdf1242095;
  0x95b0d32c6f6d8dd22902550df3700f62d95a9efb399d165b91ea966fca0491cb;
  0x1c485701af8daa89ec60b87f2a19ddc74a01cf7dde8debd3aa4b0b658fc339ac;
  0x7beae8d0da4b1c59ea09e8dd60e674e8726aa2030ad4fc96482645bd7a5aa512;
  0xb9cbde5722c6476263e3b6b6b0779f9979592060ef78876d2f964651cf8467db;
  0x6b75eb41ea563395f03d85227d43c6af652efe31b4af98fa03c71786dfc636e4;
  0xaacdfaf8c6158d24489b29904b91d359b0a9ab5f1cc2c7d2b3d35384eb4c388c;
  0xba1ef1e18eebc341b52713f803bf7e1b24a0c08ad7861f4d037442be2554b1be;
  0x1b65f604c7bbcc174073c59134db5d8cc806611781a112526bf86ed7733a54b6;
  0xe5e1b961fd3236246182393d57e3a00b078fb26c569303e118b11ed6672f141e;
  0x3afdd3260dc15d466c7bb6fa9ba098a33bca75f53e21306647b0af47baa48d26;
  0x823c4d73b2cb713cc1b6323dbda352ca4e3bc6079233e7bdde25de569b607ee6;
  0x6fb962c9db4818030ae54cb2318018f47bec21d673d94185f6c628f40561a50e;
  0xc669377a681604c66ab90b05259a2f566f0bd4e7176f55743634b39e5cee0771;
  0xcded57d015ad57d8255cfe97f8efd62c66902bf52350b4ba422e6978afe41a99;
  0x332bb0d526d07b3d91e3e43cbdc8edde958eaf8500703e0c427be930a0095692;
  0x785310169ce8586dfd64cedd349d7bb649af4fcde9e07289a76046dba61ea4bf;
  0x4fcd3619315a5d786d2f8ce762bce83e05ccd197192abd8997c1cd8a89eb4850;
  0xab69cd2a8ea543c420473d9585a6a4eb073a3c3ccf4086d127e470cfa42579ab;
  0xa594fc429c323b7dff2357985e605289da79c3aa8ab56eb252e4fd77cf52bf58;
  0x8e56441e5bd3cbb4830343ca875fdd0ba355abc34f5ae7a9b6d1624ce1a8e760;
  0x8fab2daaa53ea9a842f59dff02d5b9833a6bbe6f76d82e5f19b60d968d1850c4;
  0x35bbe24bb97e4ae5282b6c16cba6d5198cbf86d59da0e88b9c0c0b9da41ded80;
  0x6baf0a0747d7d522e04f0dae4b1e4557e905c9cdc2649ccbe898e5fec9429214;
  0x4a808e603098b9b8b9af53ed25f1ede6c89fc9f68bb4fe9ec520e4ba545f0f12;
  0xe349df0083e535342a6a212c83c8f5d3c42ac1d27c08f52db18d25807f29213e;
  0xe6d577f40c0e4992586da6a34885c39257e068e261b07fbaf73907118731692f;
  0x179a2ba131b028b0fe3a3d37bf3b52fa649a8c846f4abad53e44e083285a2f39;
  0x528e9efc2abee8eaa2f194761fb3a1fec1c891b57c4381a3b2ab05c101b54f5e;
  0x6fb2dddfef1d797741c2a873c8dbf7b0685e459338fbe9b64820035df41d7c5b;
  0x5bd1e8bd92680cc3930be3d018a0adce2bb6ad7adec466baece25ef0f7eb4e4b;
  0x3440e8852e7a3032cef738142f3d1945ec737af2d44c9018ee4cf2aac8d19247;
  0xd8ff51beadf7bfe69fb84caf91af68bb74b160bd03e0f7f4eb55e31b8f783552;
  0xe52edd9c501d18ebe019ecbe160f9557362ee4db19201a6710b0255ce08cc47a;
  0x752bdaf3a49b201df7c5361b768aca83aeb8af0de2bc5236b7baa9798ac8e2df;
  0xbb88148aef0ccf8dc19b9d9128cc38cd16d74146d884c7ae00dd4526b143c213;
  0xc9bd1a817ec72c9d88b82aa5260defdaed1ba45aa6ec8d6a9501474a424ba4b0;
  0x5fa6f16ed87e034fbc9a31bed00f327cda31cbf4f71ccbf18322dbb07f00012e;
  0x1330038d544eff8f4dccefa54710321f4c2db5f6b43f921caf78ecd8ac49b16f;
  0x370d3862ada6d9e2f8ca3d44cb565e21f042a1a9416273955e9eef5919c70677;
  0xbb4ea61cf90228b37bcc8329924f521cc62eda5e0d98649a0672051d19d2c4d8;
  0x4abf47b9d61fa9145e0e34b5d8ea40f99aec0551e854984091230a6a33e6b841;
  0x7e23fcbcf9a0c0e476d97db08bf17a668a4ba46cc888ff4fcd280258a4c36177;
  0xf815923b1525a172c4093c837250862da72f23953e4c69c292329d6e7063acc0;
  0xebfc3dc41d9f1caf9b63a9471d4319f613b939f8aef094364f95e2411efbe342;
  0x556cadabef6d684b2e7e0f8db64e9ecd234b26e13f6f6d295df0aad6fc4f8899;
  0x51b680ae497bda2c13665b992f8763934f2431623a84acbdc03768421dc882c9;
  0xd13be3cbf7f835b1f545ad8f351a7e5518d87363359535c6dd3653a03e34e73c;
  0x49d1799f9af33669b1488dd9f4bb93bfba60ee25098f25e07f83b6f08c265767;
  0x74ab8a9e66b4cf08f74e30d8533d437cb876b4c41ae8d9a8ca6fb0de0f864800;
  0xcd748601852adc30db06c8c20a607a597a58d6cedc540c81bfc394b1f2629b14;
  0xb73e4d172429821c5e7d2038cee308a8564d3f135f8f847720d805f73122c3df;
  0xc2b714c0b211883fa53ccf785ac9dbc0c825cc68bc7d49bcb33a87af07c985f0;
  0xc9cf7ad77a01c5b011442ae0ee43b6857b9f75ecb0c27b8a2ccc74c66dd20b16;
  0x312b6309e3034e22a970772f1fb46ff2093cd58c611f48450cbbde7f5679ab34;
  0x2c3ce1b557030a0cce9112696937833a06bbea5cd0a21b0695d05ba399543ad9;
  0x80f9c7919e4e89b62e15f9b8852384f3dda5f82ecb606eb3ee8b131386fc3a5c;
  0x048ac3dd85ada0d2eacdf7da602083b67ceb1d2941a15f8be10fc71ac53d456c;
  0x411d9639e12ec2d7955a96e018b3335c411d8378a5c909b20940ad58c09db364;
  0x61ba447b6f6dfca52fa3c16888a84d061fd7d6bab96fc2df99deb78e81d8f408;
  0xa84a25b98bc6533e20b0f21986b58c6284ffa7eabed12e4fcd1bc1b3a2bd8ea2;
  0x997dbf66de0495e9afdd43cd4590e924c746ee3e658ee5a37bafe9341d1f186e;
  0x2e29f7d5434fcd21c20b00e37b742c3e3877e547469d0562203ebaa81043641b].
Check (eq_refl true <: done (epoch <- CalcEpoch (cfg_firo []) 1300 ;;
    size <- DatasetSize (fun _ => false) 0 (cfg_firo []) epoch ;;
    firopow (hex "1fc36bd5d1bff8d134e24a997cfa43cbb2a0b956379bdc0c8df444f2553f6b7d") 1300 16051484521450871553 size (look test_items) test_l1)
  (fun '(mix, digest) =>
    same mix (hex "5f8fe6069efb88d9af861999973b3523295d3b1ec7e8423c965f33b3d12b20b1") &&
    same digest (hex "000038a1804eb3976346bf84e679884d56122e113c3b4a301f6180a246644262")) = true).
