(** C08-C11, C60: epochs, seeds, sizes, the shipped tables and their generator. *)
From Coq Require Import NArith ZArith List Bool Lia ZifyBool ZifyN ZifyNat Znumtheory.
From Verif Require Import Base BaseFacts Hashes HashesFacts CryptoModel DagModel DagSpec Trial DagSize DagGen
  LookupTables TabEthashCache TabEthashDataset TabFiro TabOctopus.
Import ListNotations.
Ltac Zify.zify_post_hook ::= Z.div_mod_to_equations.
Open Scope N_scope.

(** The five shipped DAG clients, [dir] being the default storage directory. *)
Definition shipped (dir : list N) : list config :=
  [cfg_ethereum dir; cfg_ethereum_classic dir; cfg_ravencoin dir; cfg_firo dir; cfg_conflux dir].

(** The shipped clients with the unit of their datasets in bytes. *)
Definition shipped_units (dir : list N) : list (config * N) :=
  [(cfg_ethereum dir, 128); (cfg_ethereum_classic dir, 128); (cfg_ravencoin dir, 128);
   (cfg_firo dir, 128); (cfg_conflux dir, 256)].

(** ** C08 *)

Theorem C08_epoch_interval d height epoch :
  0 < cf_epoch_length d ->
  (CalcEpoch d height = Done epoch <->
   epoch * cf_epoch_length d <= height < (epoch + 1) * cf_epoch_length d).
Proof. exact (CalcEpoch_spec d height epoch). Qed.
Print Assumptions C08_epoch_interval.
Example C08_interval_instance :
  0 < cf_epoch_length (cfg_firo []) /\ CalcEpoch (cfg_firo []) 2657199 = Done 2043 /\
  CalcEpoch (cfg_firo []) 2657200 = Done 2044.
Proof. repeat split. Qed.

Theorem C08_epoch_monotone d h h' e e' :
  CalcEpoch d h = Done e -> CalcEpoch d h' = Done e' -> h <= h' -> e <= e'.
Proof. exact (CalcEpoch_mono d h h' e e'). Qed.
Print Assumptions C08_epoch_monotone.

Theorem C08_epoch_step d h e e' :
  CalcEpoch d h = Done e -> CalcEpoch d (h + 1) = Done e' -> e' = e \/ e' = e + 1.
Proof. exact (CalcEpoch_step d h e e'). Qed.
Print Assumptions C08_epoch_step.
Example C08_step_instance :
  CalcEpoch (cfg_conflux []) 524287 = Done 0 /\ CalcEpoch (cfg_conflux []) (524287 + 1) = Done 1.
Proof. split; reflexivity. Qed.

(** ** C09 *)

Theorem C09_seed_is_keccak_chain keccak256 d height :
  hash_ok 32 keccak256 -> 0 < cf_seed_epoch_length d ->
  height / cf_seed_epoch_length d < 2 ^ 63 ->
  SeedHash keccak256 d height =
  Done (seed_chain keccak256 (N.to_nat (height / cf_seed_epoch_length d))).
Proof. exact (SeedHash_spec keccak256 d height). Qed.
Print Assumptions C09_seed_is_keccak_chain.

Lemma shipped_lengths dir d : In d (shipped dir) ->
  (cf_epoch_length d = 60000 /\ cf_seed_epoch_length d = 30000) \/
  (cf_epoch_length d = cf_seed_epoch_length d /\ cf_epoch_length d <> 60000 /\ 1300 <= cf_epoch_length d).
Proof.
  unfold shipped. cbn [In]. intros HI.
  destruct HI as [<-|[<-|[<-|[<-|[<-|[]]]]]]; cbn; [right|left|right|right|right]; repeat split; discriminate.
Qed.

(** The position in the chain of the seed of epoch [e]: [e] for every shipped client but
    Ethereum Classic, [2e] for it.  [addw]/[mulw] is the uint64 arithmetic of cache.go:46. *)
Theorem C09_seed_of_epoch keccak256 dir d e :
  hash_ok 32 keccak256 -> In d (shipped dir) -> e * cf_epoch_length d + 1 < 2 ^ 64 ->
  SeedHash keccak256 d (addw 64 (mulw 64 e (cf_epoch_length d)) 1) =
  Done (seed_chain keccak256
         (N.to_nat (if cf_epoch_length d =? 60000 then 2 * e else e))).
Proof.
  intros HH HI HB. unfold addw, mulw. rewrite trunc_add_l, trunc_small by auto.
  pose proof (shipped_lengths dir d HI) as [[EL ES]|(ES & EL & EP)].
  - rewrite EL in *. rewrite SeedHash_spec; rewrite ?ES; auto.
    + f_equal. f_equal. change (60000 =? 60000) with true. cbv iota. lia.
    + lia.
    + change (2 ^ 64) with 18446744073709551616 in HB. change (2 ^ 63) with 9223372036854775808. lia.
  - assert (Q : (e * cf_epoch_length d + 1) / cf_epoch_length d = e).
    { symmetry. apply (N.div_unique _ _ e 1); lia. }
    rewrite SeedHash_spec; rewrite <- ?ES; auto; rewrite ?Q; try lia.
    + destruct (N.eqb_spec (cf_epoch_length d) 60000); [lia|]. auto.
Qed.
Print Assumptions C09_seed_of_epoch.
Example C09_instance :
  hash_ok 32 keccak256 /\ In (cfg_ethereum_classic []) (shipped []) /\
  1 * cf_epoch_length (cfg_ethereum_classic []) + 1 < 2 ^ 64 /\
  SeedHash keccak256 (cfg_ethereum_classic []) (1 * 60000 + 1) =
    Done (keccak256 (keccak256 (repeat 0 32))).
Proof.
  split; [intro b; split; [apply keccak256_length|apply keccak256_bytes]|].
  split; [cbn; auto|]. split; [reflexivity|]. vm_compute. reflexivity.
Qed.

(** ** C10 *)

Lemma idx_table t e : lenN t = 2045 -> e < 2045 -> idx t e = Done (nth (N.to_nat e) t 0).
Proof. intros L H. apply idx_Done. lia. Qed.

Theorem C10_cache_tables pp fuel dir d epoch :
  In d (shipped dir) -> epoch < 2045 ->
  exists s, CacheSize pp fuel d epoch = Done s /\
    prime_size (cf_cache_init d + cf_cache_growth d * epoch) 64 s.
Proof.
  intros HI HE. unfold shipped in HI. cbn [In] in HI.
  assert (L : (epoch <? 2048) = true) by lia.
  destruct HI as [<-|[<-|[<-|[<-|[<-|[]]]]]]; unfold CacheSize;
    cbn [cf_cache_sizes cfg_ethereum cfg_ethereum_classic cfg_ravencoin cfg_firo cfg_conflux
         NewLookupTable lt_max lt_table]; rewrite L.
  - eexists. split; [apply idx_table; auto; exact ethash_cacheSizes_len|].
    exact (ethash_cacheSizes_ok epoch HE).
  - eexists. split; [apply idx_table; auto; exact ethash_cacheSizes_len|].
    exact (ethash_cacheSizes_ok epoch HE).
  - rewrite kawpow_cacheSizes_eq.
    eexists. split; [apply idx_table; auto; exact ethash_cacheSizes_len|].
    exact (ethash_cacheSizes_ok epoch HE).
  - rewrite firopow_cacheSizes_eq.
    eexists. split; [apply idx_table; auto; exact ethash_cacheSizes_len|].
    exact (ethash_cacheSizes_ok epoch HE).
  - eexists. split; [apply idx_table; auto; exact octopus_cacheSizes_len|].
    exact (octopus_cacheSizes_ok epoch HE).
Qed.
Print Assumptions C10_cache_tables.

(** [unit] is the client's MixBytes, except for Ethereum Classic whose configuration leaves
    MixBytes at 0: its table is the one for 128. *)
Theorem C10_dataset_tables pp fuel dir d unit epoch :
  In (d, unit) (shipped_units dir) -> epoch < 2045 ->
  exists s, DatasetSize pp fuel d epoch = Done s /\
    prime_size (cf_dataset_init d + cf_dataset_growth d * epoch) unit s.
Proof.
  intros HI HE. unfold shipped_units in HI. cbn [In] in HI.
  assert (L : (epoch <? 2048) = true) by lia.
  destruct HI as [E|[E|[E|[E|[E|[]]]]]]; injection E as <- <-; unfold DatasetSize;
    cbn [cf_dataset_sizes cfg_ethereum cfg_ethereum_classic cfg_ravencoin cfg_firo cfg_conflux
         NewLookupTable lt_max lt_table]; rewrite L.
  - eexists. split; [apply idx_table; auto; exact ethash_datasetSizes_len|].
    exact (ethash_datasetSizes_ok epoch HE).
  - eexists. split; [apply idx_table; auto; exact ethash_datasetSizes_len|].
    exact (ethash_datasetSizes_ok epoch HE).
  - rewrite kawpow_datasetSizes_eq.
    eexists. split; [apply idx_table; auto; exact ethash_datasetSizes_len|].
    exact (ethash_datasetSizes_ok epoch HE).
  - eexists. split; [apply idx_table; auto; exact firopow_datasetSizes_len|].
    exact (firopow_datasetSizes_ok epoch HE).
  - eexists. split; [apply idx_table; auto; exact octopus_datasetSizes_len|].
    exact (octopus_datasetSizes_ok epoch HE).
Qed.
Print Assumptions C10_dataset_tables.
Example C10_instance :
  CacheSize (fun _ => false) 0 (cfg_ethereum []) 0 = Done 16776896 /\
  CacheSize (fun _ => false) 0 (cfg_conflux []) 2044 = Done 150732224 /\
  DatasetSize (fun _ => false) 0 (cfg_firo []) 2044 = Done 18756927104 /\
  In (cfg_ethereum_classic [], 128) (shipped_units []).
Proof. repeat split; try (vm_compute; reflexivity). cbn; auto. Qed.

(** ** C11 *)

(** [4 * unit <= nominal]: below that there is no odd prime to find (see
    [C11_tiny_nominal_refuted]). *)
Theorem C11_cache_size_search pp fuel d epoch a b :
  primality_test pp ->
  cf_cache_init d = 2 * a * 64 -> cf_cache_growth d = 2 * b * 64 ->
  4 * 64 <= cf_cache_init d + cf_cache_growth d * epoch < 2 ^ 64 ->
  (N.to_nat ((cf_cache_init d + cf_cache_growth d * epoch) / 64) <= fuel)%nat ->
  exists s, calcCacheSize pp fuel d epoch = Done s /\
    prime_size (cf_cache_init d + cf_cache_growth d * epoch) 64 s.
Proof.
  intros PP HA HB [L U] F.
  exact (calc_size_spec pp fuel 64 _ _ epoch a b PP eq_refl HA HB L U F).
Qed.
Print Assumptions C11_cache_size_search.

Theorem C11_dataset_size_search pp fuel d epoch a b :
  primality_test pp -> 0 < cf_mix_bytes d ->
  cf_dataset_init d = 2 * a * cf_mix_bytes d -> cf_dataset_growth d = 2 * b * cf_mix_bytes d ->
  4 * cf_mix_bytes d <= cf_dataset_init d + cf_dataset_growth d * epoch < 2 ^ 64 ->
  (N.to_nat ((cf_dataset_init d + cf_dataset_growth d * epoch) / cf_mix_bytes d) <= fuel)%nat ->
  exists s, calcDatasetSize pp fuel d epoch = Done s /\
    prime_size (cf_dataset_init d + cf_dataset_growth d * epoch) (cf_mix_bytes d) s.
Proof.
  intros PP HM HA HB [L U] F.
  exact (calc_size_spec pp fuel (cf_mix_bytes d) _ _ epoch a b PP HM HA HB L U F).
Qed.
Print Assumptions C11_dataset_size_search.

(** The specified size is unique, so "the size" is well defined. *)
Theorem C11_size_unique nominal unit s s' :
  prime_size nominal unit s -> prime_size nominal unit s' -> s = s'.
Proof. exact (prime_size_unique nominal unit s s'). Qed.
Print Assumptions C11_size_unique.

(** Hence the tables agree with the search wherever both are defined. *)
Theorem C10_tables_equal_search pp fuel dir d epoch :
  primality_test pp -> In d (shipped dir) -> epoch < 2045 ->
  (2 ^ 30 <= N.of_nat fuel) ->
  calcCacheSize pp fuel d epoch = CacheSize pp fuel d epoch /\
  (cf_mix_bytes d <> 0 -> calcDatasetSize pp fuel d epoch = DatasetSize pp fuel d epoch).
Proof.
  intros PP HI HE HF. change (2 ^ 30) with 1073741824 in HF. split.
  - destruct (C10_cache_tables pp fuel dir d epoch HI HE) as (s & E & S). rewrite E.
    assert (X : exists b a, cf_cache_init d = 2 * a * 64 /\ cf_cache_growth d = 2 * b * 64 /\
                cf_cache_init d = 2 ^ 24 /\ b <= 1024).
    { unfold shipped in HI. cbn [In] in HI.
      destruct HI as [<-|[<-|[<-|[<-|[<-|[]]]]]];
        [exists 1024|exists 1024|exists 1024|exists 1024|exists 512]; exists 131072; repeat split; lia. }
    destruct X as (b & a & X1 & X2 & X3 & X4). change (2 ^ 24) with 16777216 in X3.
    assert (2 * b * 64 * epoch <= 2 * 1024 * 64 * 2045) by nia.
    change (2 * 1024 * 64 * 2045) with 268042240 in *.
    destruct (C11_cache_size_search pp fuel d epoch a b PP X1 X2) as (s' & E' & S').
    + rewrite X2, X3. change (2 ^ 64) with 18446744073709551616. lia.
    + rewrite X2, X3. lia.
    + rewrite E'. f_equal. eapply C11_size_unique; eauto.
  - intros HM.
    assert (X : exists b a, In (d, cf_mix_bytes d) (shipped_units dir) /\
                cf_dataset_init d = 2 * a * cf_mix_bytes d /\ cf_dataset_growth d = 2 * b * cf_mix_bytes d /\
                cf_dataset_growth d <= 16777216 /\ 1073741824 <= cf_dataset_init d <= 4294967296 /\
                128 <= cf_mix_bytes d <= 256).
    { unfold shipped in HI. cbn [In] in HI.
      destruct HI as [<-|[<-|[<-|[<-|[<-|[]]]]]];
        [exists 32768, 4194304|exfalso; apply HM; reflexivity|exists 32768, 4194304
        |exists 32768, 6291456|exists 32768, 8388608];
        cbn [shipped_units In]; repeat split; auto 8; cbn; lia. }
    destruct X as (b & a & X0 & X1 & X2 & X3 & X4 & X5).
    destruct (C10_dataset_tables pp fuel dir d _ epoch X0 HE) as (s & E & S). rewrite E.
    assert (cf_dataset_growth d * epoch <= 16777216 * 2045) by nia.
    change (16777216 * 2045) with 34309406720 in *.
    destruct (C11_dataset_size_search pp fuel d epoch a b PP ltac:(lia) X1 X2) as (s' & E' & S').
    + change (2 ^ 64) with 18446744073709551616. nia.
    + assert (cf_dataset_init d + cf_dataset_growth d * epoch <= 38604374016) by lia.
      assert ((cf_dataset_init d + cf_dataset_growth d * epoch) / cf_mix_bytes d <= 1073741824); [|lia].
      apply N.div_le_upper_bound; nia.
    + rewrite E'. f_equal. eapply C11_size_unique; eauto.
Qed.
Print Assumptions C10_tables_equal_search.

(** An executable primality test that is right for all numbers: no divisor in 2..n-1. *)
Definition slow_prime (n : N) : bool :=
  (2 <=? n) && forallb (fun i => negb (n mod N.of_nat i =? 0)) (seq 2 (N.to_nat n - 2)).

Lemma slow_prime_ok : primality_test slow_prime.
Proof.
  intros n Hn. unfold slow_prime. rewrite andb_true_iff, forallb_forall. split.
  - intros [A B]. apply prime_alt. split; [lia|]. intros m Hm [k Hk].
    assert (HI : In (Z.to_nat m) (seq 2 (N.to_nat n - 2))) by (apply in_seq; lia).
    specialize (B _ HI). assert (n mod N.of_nat (Z.to_nat m) = 0); [|lia].
    apply N.mod_divide; [lia|]. exists (Z.to_N k). nia.
  - intros P. assert (2 <= n) by (destruct P; lia). split; [lia|].
    intros i HI. apply in_seq in HI. destruct (N.eqb_spec (n mod N.of_nat i) 0) as [E|]; auto.
    exfalso. revert P. apply (not_prime_divisor n (N.of_nat i)); auto; lia.
Qed.

Example C11_instance :
  let d := gen_config 128 1024 128 1024 256 in
  primality_test slow_prime /\ cf_cache_init d = 2 * 8 * 64 /\ cf_cache_growth d = 2 * 1 * 64 /\
  4 * 64 <= cf_cache_init d + cf_cache_growth d * 5 < 2 ^ 64 /\
  calcCacheSize slow_prime 30 d 5 = Done (23 * 64) /\
  calcDatasetSize slow_prime 30 d 5 = Done (17 * 128).
Proof.
  cbv zeta. split; [exact slow_prime_ok|]. repeat split; vm_compute; congruence.
Qed.

(** Without the lower bound the claim fails: a nominal size of two units makes the search
    wrap around below zero. *)
Theorem C11_tiny_nominal_refuted :
  exists d pp, cf_cache_init d = 2 * 1 * 64 /\ cf_cache_growth d = 0 /\
    (pp 1 = false /\ calcCacheSize pp 2 d 0 = Done (2 ^ 64 - 64) /\ pp (2 ^ 58 - 1) = true).
Proof.
  exists (gen_config 128 128 0 0 0), (fun n => n =? 2 ^ 58 - 1). repeat split; vm_compute; reflexivity.
Qed.
Print Assumptions C11_tiny_nominal_refuted.

(** ** C60 *)

(** Exactly the first [rowSize * floor(epochs / rowSize)] entries are emitted, in order. *)
Theorem C60_emitted_entries table rowSize :
  0 < rowSize ->
  exists text, formatLookupTable table rowSize = Done text /\
    literal_entries text = firstn (N.to_nat (rowSize * (lenN table / rowSize))) table.
Proof. exact (formatLookupTable_spec table rowSize). Qed.
Print Assumptions C60_emitted_entries.

(** Hence every table whose length is not a multiple of the row size is cut short. *)
Theorem C60_every_epoch_refuted table rowSize text :
  0 < rowSize -> lenN table mod rowSize <> 0 ->
  formatLookupTable table rowSize = Done text ->
  lenN (literal_entries text) < lenN table.
Proof.
  intros HR HM E. destruct (formatLookupTable_spec table rowSize HR) as (t & E' & R).
  rewrite E in E'. injection E' as <-. rewrite R. unfold lenN at 1. rewrite firstn_length.
  pose proof (N.div_mod (lenN table) rowSize ltac:(lia)). unfold lenN in *. lia.
Qed.
Print Assumptions C60_every_epoch_refuted.

Theorem C60_complete_when_divisible table rowSize text :
  0 < rowSize -> lenN table mod rowSize = 0 ->
  formatLookupTable table rowSize = Done text -> literal_entries text = table.
Proof.
  intros HR HM E. destruct (formatLookupTable_spec table rowSize HR) as (t & E' & R).
  rewrite E in E'. injection E' as <-. rewrite R. apply firstn_all2.
  pose proof (N.div_mod (lenN table) rowSize ltac:(lia)). unfold lenN in *. lia.
Qed.
Print Assumptions C60_complete_when_divisible.

(** The whole generator as main.go runs it (2048 epochs, rows of 5) for the cache sizes of
    Ethereum: the file has the right sizes for epochs 0..2044 and nothing for 2045..2047,
    while the clients read it as a table of 2048 entries. *)
Theorem C60_shipped_generator pp fuel :
  primality_test pp -> 2 ^ 30 <= N.of_nat fuel ->
  exists table text,
    genCacheLookupTable pp fuel (2 ^ 24) (2 ^ 17) 2048 = Done table /\
    lenN table = 2048 /\
    (forall e, e < 2048 -> prime_size (2 ^ 24 + 2 ^ 17 * e) 64 (nth (N.to_nat e) table 0)) /\
    formatLookupTable table 5 = Done text /\
    literal_entries text = firstn (N.to_nat 2045) table /\
    literal_entries text = ethash_cacheSizes.
Proof.
  intros PP HF. change (2 ^ 30) with 1073741824 in HF.
  set (d := gen_config 0 (2 ^ 24) (2 ^ 17) 0 0).
  assert (C : forall e, e < 2048 -> exists s, CacheSize pp fuel d e = Done s /\
                prime_size (2 ^ 24 + 2 ^ 17 * e) 64 s).
  { intros e He. apply (C11_cache_size_search pp fuel d e 131072 1024 PP eq_refl eq_refl);
    change (cf_cache_init d) with 16777216; change (cf_cache_growth d) with 131072;
    try change (2 ^ 64) with 18446744073709551616; lia. }
  set (g := fun e => match CacheSize pp fuel d e with Done s => s | _ => 0 end).
  assert (G : genCacheLookupTable pp fuel (2 ^ 24) (2 ^ 17) 2048 = Done (tab 2048 g)).
  { unfold genCacheLookupTable. apply (gen_fill (fun i => CacheSize pp fuel d i)).
    intros e He. destruct (C e He) as (s & E & _). unfold g. rewrite E. auto. }
  destruct (formatLookupTable_spec (tab 2048 g) 5 eq_refl) as (text & E & R).
  assert (P : forall e, e < 2048 -> prime_size (2 ^ 24 + 2 ^ 17 * e) 64 (nth (N.to_nat e) (tab 2048 g) 0)).
  { intros e He. rewrite nth_tab, N2Nat.id by lia. unfold g.
    destruct (C e He) as (s & Es & S). rewrite Es. exact S. }
  rewrite lenN_tab in R. change (5 * (2048 / 5)) with 2045 in R.
  exists (tab 2048 g), text. split; [auto|]. split; [apply lenN_tab|]. split; [auto|].
  split; [auto|]. split; [auto|].
  rewrite R.
  assert (LL : length (firstn (N.to_nat 2045) (tab 2048 g)) = N.to_nat 2045).
  { rewrite firstn_length, tab_length. lia. }
  pose proof ethash_cacheSizes_len as L2. unfold lenN in L2.
  apply (list_eq_nth _ _ 0); [lia|].
  intros i Hi. rewrite LL in Hi. rewrite nth_firstn by auto.
  replace i with (N.to_nat (N.of_nat i)) by lia.
  eapply prime_size_unique; [apply P; lia|]. exact (ethash_cacheSizes_ok (N.of_nat i) ltac:(lia)).
Qed.
Print Assumptions C60_shipped_generator.
Example C60_instance :
  exists text, formatLookupTable [11; 222; 3; 44; 5; 6; 7] 3 = Done text /\
  literal_entries text = [11; 222; 3; 44; 5; 6] /\ 7 mod 3 <> 0.
Proof. eexists. split; [vm_compute; reflexivity|]. split; [vm_compute; reflexivity|]. discriminate. Qed.
