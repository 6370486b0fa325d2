(** The repository's test vectors for epochs, seeds, sizes and small caches (internal/dag),
    replayed through the model with the real Keccak.  They are
    checked with the virtual machine when this file is compiled and leave no proof terms behind. *)
From Coq Require Import NArith ZArith List Bool.
From Coq Require String.
From Verif Require Import Base CryptoModel Hashes DagModel Trial.
Import ListNotations.
Import String.StringSyntax.
Open Scope string_scope.
Open Scope list_scope.
Open Scope N_scope.

Definition same (a b : list N) : bool := if list_eq_dec N.eq_dec a b then true else false.
Definition done {A} (r : outcome A) (p : A -> bool) : bool := match r with Done x => p x | _ => false end.

(** The configuration of the Go tests: no tables; [epoch] is 30000 or 7500. *)
Definition test_cfg (name : list N) (mix parents epoch : N) (l1 : bool) : config := {|
  cf_name := name;
  cf_revision := 23%Z;
  cf_storage_dir := [];
  cf_dataset_init := 2 ^ 30;
  cf_dataset_growth := 2 ^ 23;
  cf_cache_init := 2 ^ 24;
  cf_cache_growth := 2 ^ 17;
  cf_cache_sizes := None;
  cf_dataset_sizes := None;
  cf_mix_bytes := mix;
  cf_dataset_parents := parents;
  cf_epoch_length := epoch;
  cf_seed_epoch_length := epoch;
  cf_cache_rounds := 3;
  cf_caches_count := 3%Z;
  cf_caches_lock_mmap := false;
  cf_l1_enabled := l1;
  cf_l1_cache_size := if l1 then 4096 * 4 else 0;
  cf_l1_cache_num_items := if l1 then 4096 else 0 |}.
Definition eth (mix : N) : config := test_cfg (ascii_bytes "ETH") mix 256 30000 false.
Definition rvn : config := test_cfg (ascii_bytes "RVN") 0 512 7500 true.

(** Trial division by the primes below 12300, exact below 12300^2. *)
Definition prime_test (q : N) : bool := (1 <? q) && negb (existsb (fun p => (p <? q) && (q mod p =? 0)) primes).

(** dag_test.go:27-97 *)
Check (eq_refl true <: forallb (fun '(h, e) => done (CalcEpoch rvn h) (N.eqb e))
  [(0, 0); (1, 0); (7499, 0); (7500, 1); (7501, 1); (7502, 1); (1245000, 166)] = true).
(** dag_test.go:99-164, the first three *)
Check (eq_refl true <: forallb (fun '(e, s) => done (SeedHash keccak256 rvn (e * cf_epoch_length rvn + 1)) (same (hex s)))
  [(0, "0000000000000000000000000000000000000000000000000000000000000000");
   (1, "290decd9548b62a8d60345a988386fc84ba6bc95484008f6362f93160ef3e563");
   (171, "a9b0e0c9aca72c07ba06b5bbdae8b8f69e61878301508473379bb4f71807d707")] = true).
(** dag_test.go:166-245 *)
Check (eq_refl true <: forallb (fun '(e, s) => done (calcCacheSize prime_test 200 (eth 0) e) (N.eqb s))
  [(0, 16776896); (1, 16907456); (2, 17039296); (3, 17170112); (4, 17301056); (5, 17432512); (6, 17563072); (7, 17693888); (8, 17824192); (9, 17955904)] = true).
(** dag_test.go:247-328 *)
Check (eq_refl true <: forallb (fun '(e, s) => done (calcDatasetSize prime_test 200 (eth 128) e) (N.eqb s))
  [(0, 1073739904); (1, 1082130304); (2, 1090514816); (3, 1098906752); (4, 1107293056); (5, 1115684224); (6, 1124070016); (7, 1132461952); (8, 1140849536); (9, 1149232768)] = true).
(** generate_test.go:30-116, epoch 0 *)
Check (eq_refl true <: done (seed <- SeedHash keccak256 (eth 0) (0 * 30000 + 1) ;; generateCache keccak512 (eth 0) (zeros 1024) seed)
  (same (concat (map hex [
    "7ce2991c951f7bf4c4c1bb119887ee07871eb5339d7b97b8588e85c742de90e5bafd5bbe6ce93a134fb6be9ad3e30db99d9528a2ea7846833f52e9ca119b6b54";
    "8979480c46e19972bd0738779c932c1b43e665a2fd3122fc3ddb2691f353ceb0ed3e38b8f51fd55b6940290743563c9f8fa8822e611924657501a12aafab8a8d";
    "88fb5fbae3a99d14792406672e783a06940a42799b1c38bc28715db6d37cb11f9f6b24e386dc52dd8c286bd8c36fa813dffe4448a9f56ebcbeea866b42f68d22";
    "6c32aae4d695a23cab28fd74af53b0c2efcc180ceaaccc0b2e280103d097a03c1d1b0f0f26ce5f32a90238f9bc49f645db001ef9cd3d13d44743f841fad11a37";
    "fa290c62c16042f703578921f30b9951465aae2af4a5dad43a7341d7b4a62750954965a47a1c3af638dc3495c4d62a9bab843168c9fc0114e79cffd1b2827b01";
    "75d30ba054658f214e946cf24c43b40d3383fbb0493408e5c5392434ca21bbcf43200dfb876c713d201813934fa485f48767c5915745cf0986b1dc0f33e57748";
    "bf483ee2aff4248dfe461ec0504a13628401020fc22638584a8f2f5206a13b2f233898c78359b21c8226024d0a7a93df5eb6c282bdbf005a4aab497e096f2847";
    "76c71cee57932a8fb89f6d6b8743b60a4ea374899a94a2e0f218d5c55818cefb1790c8529a76dba31ebb0f4592d709b49587d2317970d39c086f18dd244291d9";
    "eedb16705e53e3350591bd4ff4566a3595ac0f0ce24b5e112a3d033bc51b6fea0a92296dea7f5e20bf6ee6bc347d868fda193c395b9bb147e55e5a9f67cfe741";
    "7eea7d699b155bd13804204df7ea91fa9249e4474dddf35188f77019c67d201e4c10d7079c5ad492a71afff9a23ca7e900ba7d1bdeaf3270514d8eb35eab8a0a";
    "718bb7273aeb37768fa589ed8ab01fbf4027f4ebdbbae128d21e485f061c20183a9bc2e31edbda0727442e9d58eb0fe198440fe199e02e77c0f7b99973f1f74c";
    "c9089a51ab96c94a84d66e6aa48b2d0a4543adb5a789039a2aa7b335ca85c91026c7d3c894da53ae364188c3fd92f78e01d080399884a47385aa792e38150cda";
    "a8620b2ebeca41fbc773bb837b5e724d6eb2de570d99858df0d7d97067fb8103b21757873b735097b35d3bea8fd1c359a9e8a63c1540c76c9784cf8d975e995c";
    "778401b94a2e66e6993ad67ad3ecdc2acb17779f1ea8606827ec92b11c728f8c3b6d3f04a3e6ed05ff81dd76d5dc5695a50377bc135aaf1671cf68b750315493";
    "6c64510164d53312bf3c41740c7a237b05faf4a191bd8a95dafa068dbcf370255c725900ce5c934f36feadcfe55b687c440574c1f06f39d207a8553d39156a24";
    "845f64fd8324bb85312979dead74f764c9677aab89801ad4f927f1c00f12e28f22422bb44200d1969d9ab377dd6b099dc6dbc3222e9321b2c1e84f8e2f07731c"]))) = true).
(** generate_test.go:30-116, epoch 1 *)
Check (eq_refl true <: done (seed <- SeedHash keccak256 (eth 0) (1 * 30000 + 1) ;; generateCache keccak512 (eth 0) (zeros 1024) seed)
  (same (concat (map hex [
    "1f56855d59cc5a085720899b4377a0198f1abe948d85fe5820dc0e346b7c0931b9cde8e541d751de3b2b3275d0aabfae316209d5879297d8bd99f8a033c9d4df";
    "35add1029f4e6404a022d504fb8023e42989aba985a65933b0109c7218854356f9284983c9e7de97de591828ae348b63d1fc78d8db58157344d4e06530ffd422";
    "5c7f6080d451ff94961ec2dd9e28e6d81b49102451676dbdcb6ef1094c1e8b29e7e808d47b2ba5aeb52dabf00d5f0ee08c116289cbf56d8132e5ca557c3d6220";
    "5ba3a48539acabfd4ca3c89e3aaa668e24ffeaeb9eb0136a9fc5a8a676b6d5ad76175eeda0a1fa44b5ff5591079e4b7f581569b6c82416adcb82d7e92980df67";
    "2248c4024013e7be52cf91a82491627d9e6d80eda2770ab82badc5e120cd33a4c84495f718b57396a8f397e797087fad81fa50f0e2f5da71e40816a85de35a96";
    "3cd351364905c45b3116ff25851d43a2ca1d2aa5cdb408440dabef8c57778fc18608bf431d0c7ffd37649a21a7bb9d90def39c821669dbaf165c0262434dfb08";
    "5d057a12de4a7a59fd2dfc931c29c20371abf748b69b618a9bd485b3fb3166cad4d3d27edf0197aabeceb28b96670bdf020f26d1bb9b564aaf82d866bdffd6d4";
    "1aea89e20b15a5d1264ab01d1556bfc2a266081609d60928216bd9646038f07de9fedcc9f2b86ab1b07d7bd88ba1df08b3d89b2ac789001b48a723f217debcb7";
    "090303a3ef50c1d5d99a75c640ec2b401ab149e06511753d8c49cafdde2929ae61e09cc0f0319d262869d21ead9e0cf5ff2de3dbedfb994f32432d2e4aa44c82";
    "7c42781d1477fe03ea0772998e776d63363c6c3edd2d52c89b4d2c9d89cdd90fa33b2b41c8e3f78ef06fe90bcf5cc5756d33a032f16b744141aaa8852bb4cb3a";
    "40792b93489c6d6e56c235ec4aa36c263e9b766a4daaff34b2ea709f9f811aef498a65bfbc1deffd36fcc4d1a123345fac7bf57a1fb50394843cd28976a6c7ff";
    "fe70f7b8d8f384aa06e2c9964c92a8788cef397fffdd35181b42a35d5d98cd7244bbd09e802888d7efc0311ae58e0961e3656205df4bdc553f317df4b6ede4ca";
    "846294a32aec830ab1aa5aac4e78b821c35c70fd752fec353e373bf9be656e775a0111bcbeffdfebd3bd5251d27b9f6971aa561a2bd27a99d61b2ce3965c3726";
    "1e114353e6a31b09340f4078b8a8c6ce6ff4213067a8f21020f78aff4f8b472b701ef730aacb8ce7806ea31b14abe8f8efdd6357ca299d339abc4e43ba324ad1";
    "efe6eb1a5a6e137daa6ec9f6be30931ca368a944cfcf2a0a29f9a9664188f0466e6f078c347f9fe26a9a89d2029462b19245f24ace47aecace6ef85a4e96b31b";
    "5f470eb0165c6375eb8f245d50a25d521d1e569e3b2dccce626752bb26eae624a24511e831a81fab6898a791579f462574ca4851e6588116493dbccc3072e0c5"]))) = true).
(** Dataset items and the first eight of the L1 cache for the small cache of epoch 1.  The Go
    test of the items (generate_test.go:173-232) uses a full cache, which is out of reach on
    lists; these values were computed outside Coq by the implementation that also gave the
    items of VecEthash.v, VecOctopus.v, VecKawpow.v and VecFiropow.v. *)
Definition words_of (r : outcome (list N)) : list N :=
  match (c <- r ;; BytesToUint32Array c LittleEndian) with Done w => w | _ => [] end.
Definition small_cache : list N := Eval vm_compute in
  words_of (seed <- SeedHash keccak256 (eth 0) 30001 ;; generateCache keccak512 (eth 0) (zeros 1024) seed).
Check (eq_refl true <: forallb (fun '(i, s) => done (generateDatasetItem keccak512 (eth 0) small_cache i) (same (hex s)))
  [(0, "79df9b4009b91c310ea137041e34caddc62a83cadcf8fc2320a304aef99b812698ba536d46e2bf5666724b776a3fdb20e795ccc91c3e3b50fa891fba5fcf9527");
   (1, "064f378471cada1baf9f42288b7c0e672eff500f4b04e1a6227e299c160b180255701fce4b6c01d944c18003d46113f278448def677216d697a2ede3c4740eaa");
   (15, "8cd9e16d74998cfb1fac279c10f25b4e476d0d2e1653d74b2f302db8b42274a53d20c9310140b39d32060391199a92070c39ce1d7905c212f69129560aac92ef");
   (16, "beb23b68ea3d2dc3f73eab3cd03325fe1fd7a261392d580a647ba9d3f8e30b382cba96183d78760bbd24a2a472cb08688e35f05477b403e18c50147554f6da9c");
   (1000, "df83c53dbd55aeac49b506d74ecab393b4c1b2f186fd604e79b2ad03550b909149c59d9c5f705b2b9a33c112e7bf0af52b6bb13799479c102cd5aa43d1ff72e9");
   (4194304, "53c0fc797fd2b8010a207363b1a144253f2087f5f4fc3aedbab7d5f4406960d4a84600bc33521bb3b52f1cf1a8ec2145c38cf7978725b153cd9a6d8d1592ea06");
   (4294967295, "7153cd1973792ce2145d36c915349f007858b859ac1de97aa92fcca2c18cfa89e08b7baf4e1d0c9a574c6da3feac6be8bc2b9be64e31ece253ee38fec2e3aef9")] = true).
Check (eq_refl true <: forallb (fun '(i, s) => done (generateDatasetItem keccak512 rvn small_cache i) (same (hex s)))
  [(0, "1411190c0a1751f5f993b30e6edf4b1496c59d6d3f6c7a67fd81010cf2dafbb7bd61363b82b565bf9ed0fc7a877f1b87b18bea484a9a46f8bd062bf54c851845");
   (1, "7ec57691124d615ffcc852d52c93a46d3b5e6e1e6ccc23c238c5b2b105aefe2a205622cd6dd5909ea8c6dd2a7e75775b875f55305ebdf4f7c160ca8eb85c79f9");
   (15, "5d3fb33da35d558f3b3277e657e23bb373dddca4924908ba16d85af87bced06a8a3b658a540db6df5ea624f6f1dfd00881b64fdbbe1aa1831826f224668d23d1");
   (16, "f2588435108c67d3da77bdfc4d418cba576d54cd039630df02ca80cdb0e3eb7e34a002afac55dc9548d4f73268baba3eb347d198ec5e5a9db7ca3afd656859ac");
   (1000, "89870b773f0ad181962785ea9154839d773fb7c8634b221e61f9a684c6d4663eacaed1d7cde1b7b1e785718d4c29c6cf88b884cda2a952c382a77f39fcf264f2");
   (4194304, "442c5d9481a8e6d616d70eadb47ec33a97395b23ba92519e6bd6a642b1b4af6d73448a182c3b31b6ede1154410ac93ac30876329bb1e300068bfbf483ef36e87");
   (4294967295, "2e70f171e2418a15d861dc5ade1910faa66b58b8474ef1ebd94c8b15c142842bb43a12e2c8b3eecaf98ebcf67d601087698fa5dbc2a07eb7c2f3205fe1401787")] = true).
Check (eq_refl true <: done (generateL1Cache keccak512 rvn (zeros 512) small_cache) (same (concat (map hex ["1411190c0a1751f5f993b30e6edf4b1496c59d6d3f6c7a67fd81010cf2dafbb7bd61363b82b565bf9ed0fc7a877f1b87b18bea484a9a46f8bd062bf54c851845";
    "7ec57691124d615ffcc852d52c93a46d3b5e6e1e6ccc23c238c5b2b105aefe2a205622cd6dd5909ea8c6dd2a7e75775b875f55305ebdf4f7c160ca8eb85c79f9";
    "4f54941823e6a77e59907f2725cbb14b7428bb46cad1103b8c0fa976d033076f53ce01d1617ae7c56d6f49ee9019b5054fd8f65f36254642813abaf8d15bee59";
    "ee5535f4af34316db101b03d1e6adc6ff59d16d29901b94e1ccb4acf260f25fdf4e7bef8d7f1b1d8428d3b0965ef57366ec78438a1172b397f7e47332b8eff07";
    "c82a146bc9522bbcee2d8ecf0592114a13cde2b5c2c2cdc66b7c528d981c8756b3193ada637b0508a92599fa8b976bc3fa7798ace406d5afdbe58648abb91de2";
    "07903a9d88484c2092656a76040d9a71f571e918f87c41f28c8a89806dc248e66bc274a536380d2f4685759a57f3a574b88236a8b9ba80c50611d72a19908c19";
    "b642e2c566d79bf4aade95e7d88caee09f57348ce497defeca65defe4bb4d9b5a557ed66fb5a40fd94fad56e2ed4531709f6bc0e2f65b33962d1a2f194ccf20a";
    "37cd65f08ee306bac814a70b8d69d2a7aa00d961d05117f8ab5baaf77b70f43f4afc18328beb0c32ee0d65b907cd4f186e406c8bfe6b12ebe91e381f7041c442"]))) = true).
