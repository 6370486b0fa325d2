(** C12, C16, C23, C31: the DAG clients from end to end. *)
From Coq Require Import NArith ZArith Arith List Bool Lia ZifyBool ZifyN ZifyNat Permutation Znumtheory.
From Verif Require Import Base BaseFacts Hashes HashesFacts KeccakSpec DagModel DagSpec DagContent FileModel FileJob FileJobProofs
  RegModel RegSpec RegProofs EthashModel EthashSpec ProgpowModel ProgpowSpec ProgpowHash OctopusModel OctopusSpec
  LookupTables TabEthashCache TabEthashDataset TabFiro TabOctopus
  PropsDagSize PropsDagContent PropsEthash PropsProgpow PropsOctopus ClientModel ClientSpec ClientProofs.
Import ListNotations.
Open Scope N_scope.
Ltac Zify.zify_post_hook ::= Z.div_mod_to_equations.

(** ** The epochs a shipped client can serve *)

(** Below 2044 from the tables; from 2048 on by search, as long as the cache of the next epoch stays within
    4 GiB and the dataset within 256 GiB.  Ethereum Classic has no search (see C12_classic_refuted). *)
Definition served (d : config) (e : N) : Prop :=
  e < 2044 \/
  (cf_mix_bytes d <> 0 /\ 2048 <= e /\
   cf_cache_init d + cf_cache_growth d * (e + 1) <= 2 ^ 32 /\ cf_dataset_init d + cf_dataset_growth d * e <= 2 ^ 38).

Lemma prime_size_bounds nominal unit s : 0 < unit -> prime_size nominal unit s ->
  2 * unit <= s /\ s < nominal /\ s mod unit = 0.
Proof.
  intros U ((k & K) & (q & ->) & P & _). rewrite N.div_mul in P by lia.
  assert (2 <= q) by (destruct P; lia). split; [nia|]. split; [nia|]. apply N.mod_mul. lia.
Qed.

Lemma shipped_of_units dir d unit : In (d, unit) (shipped_units dir) -> In d (shipped dir).
Proof.
  unfold shipped_units, shipped. cbn [In].
  intros [E|[E|[E|[E|[E|[]]]]]]; injection E as <- <-; auto 10.
Qed.

Lemma cache_size_served pp fuel dir d e :
  primality_test pp -> 2 ^ 31 <= N.of_nat fuel -> In d (shipped dir) ->
  e < 2045 \/ (2048 <= e /\ cf_cache_init d + cf_cache_growth d * e <= 2 ^ 32) ->
  exists s, CacheSize pp fuel d e = Done s /\ prime_size (cf_cache_init d + cf_cache_growth d * e) 64 s.
Proof.
  intros PP F HI [HE|(HE & HC)]; [apply (C10_cache_tables pp fuel dir); auto|].
  assert (X : exists a b, cf_cache_init d = 2 * a * 64 /\ cf_cache_growth d = 2 * b * 64 /\ cf_cache_init d = 2 ^ 24 /\
     CacheSize pp fuel d e = calcCacheSize pp fuel d e).
  { unfold shipped in HI. cbn [In] in HI.
    assert (LT : (e <? 2048) = false) by (clear -HE; lia).
    destruct HI as [<-|[<-|[<-|[<-|[<-|[]]]]]]; exists 131072;
      [exists 1024|exists 1024|exists 1024|exists 1024|exists 512]; split; try reflexivity; split; try reflexivity;
      split; try reflexivity; unfold CacheSize;
      cbn [cf_cache_sizes cfg_ethereum cfg_ethereum_classic cfg_ravencoin cfg_firo cfg_conflux NewLookupTable lt_max lt_table];
      rewrite LT; reflexivity. }
  destruct X as (a & b & A & B & I & ->). change (2 ^ 32) with 4294967296 in HC. change (2 ^ 31) with 2147483648 in F.
  change (2 ^ 24) with 16777216 in I.
  apply (C11_cache_size_search pp fuel d e a b PP A B).
  - change (2 ^ 64) with 18446744073709551616. lia.
  - set (x := _ + _) in *. clearbody x. clear -HC F. lia.
Qed.

Lemma dataset_size_served pp fuel dir d unit e :
  primality_test pp -> 2 ^ 31 <= N.of_nat fuel -> In (d, unit) (shipped_units dir) ->
  e < 2045 \/ (cf_mix_bytes d <> 0 /\ 2048 <= e /\ cf_dataset_init d + cf_dataset_growth d * e <= 2 ^ 38) ->
  exists s, DatasetSize pp fuel d e = Done s /\ prime_size (cf_dataset_init d + cf_dataset_growth d * e) unit s.
Proof.
  intros PP F HI [HE|(HM & HE & HC)]; [apply (C10_dataset_tables pp fuel dir); auto|].
  assert (X : exists a b, unit = cf_mix_bytes d /\ 128 <= unit /\ cf_dataset_init d = 2 * a * unit /\ cf_dataset_growth d = 2 * b * unit /\
     1073741824 <= cf_dataset_init d /\ unit <= 256 /\ DatasetSize pp fuel d e = calcDatasetSize pp fuel d e).
  { unfold shipped_units in HI. cbn [In] in HI.
    assert (LT : (e <? 2048) = false) by (clear -HE; lia).
    destruct HI as [E|[E|[E|[E|[E|[]]]]]]; injection E as <- <-;
      [exists 4194304|elim HM; reflexivity|exists 4194304|exists 6291456|exists 8388608]; exists 32768;
      (split; [reflexivity|]); (split; [lia|]); (split; [reflexivity|]); (split; [reflexivity|]);
      (split; [cbn; lia|]); (split; [lia|]); unfold DatasetSize;
      cbn [cf_dataset_sizes cfg_ethereum cfg_ethereum_classic cfg_ravencoin cfg_firo cfg_conflux NewLookupTable lt_max lt_table];
      rewrite LT; reflexivity. }
  destruct X as (a & b & -> & U & A & B & I & U2 & ->). change (2 ^ 38) with 274877906944 in HC. change (2 ^ 31) with 2147483648 in F.
  apply (C11_dataset_size_search pp fuel d e a b PP); auto.
  - lia.
  - change (2 ^ 64) with 18446744073709551616. lia.
  - assert ((cf_dataset_init d + cf_dataset_growth d * e) / cf_mix_bytes d <= 2147483648); [|lia].
    apply N.div_le_upper_bound; [lia|]. nia.
Qed.

(** What the proofs of ClientProofs.v ask of an epoch. *)
Lemma epoch_ok_served pp fuel dir d e :
  primality_test pp -> 2 ^ 31 <= N.of_nat fuel -> In d (shipped dir) ->
  e < 2045 \/ (2048 <= e /\ cf_cache_init d + cf_cache_growth d * e <= 2 ^ 32) ->
  exists s, epoch_ok pp fuel d e s /\ prime_size (cf_cache_init d + cf_cache_growth d * e) 64 s.
Proof.
  intros PP F HI HE. destruct (cache_size_served pp fuel dir d e PP F HI HE) as (s & E & S).
  exists s. split; [|exact S]. destruct (prime_size_bounds _ 64 s ltac:(lia) S) as (B1 & B2 & B3).
  assert (X : cf_epoch_length d <= 2 ^ 19 /\ cf_cache_init d = 2 ^ 24 /\ 2 ^ 16 <= cf_cache_growth d /\ cf_cache_growth d <= 2 ^ 17).
  { unfold shipped in HI. cbn [In] in HI. destruct HI as [<-|[<-|[<-|[<-|[<-|[]]]]]]; cbn; lia. }
  destruct X as (X1 & X2 & X3 & X4). change (2 ^ 19) with 524288 in X1. change (2 ^ 24) with 16777216 in X2.
  change (2 ^ 16) with 65536 in X3. change (2 ^ 17) with 131072 in X4. change (2 ^ 32) with 4294967296 in *.
  assert (e <= 65535 /\ cf_cache_init d + cf_cache_growth d * e <= 4294967296).
  { destruct HE as [HE|(HE & HC)].
    - split; [lia|]. rewrite X2. nia.
    - split; [|exact HC]. rewrite X2 in HC. nia. }
  split; [|split; [exact E|split; [exact B3|split; [lia|]]]].
  - change (2 ^ 63) with 9223372036854775808. nia.
  - change (2 ^ 32) with 4294967296. lia.
Qed.

(** ** Serving *)

(** A call whose arguments have their Go types, and whose height the client can serve if the length is right. *)
Definition served_call (d : config) (q : call) : Prop :=
  (forall m, Permutation m (cl_order q m)) /\ bytes (cl_hash q) /\ cl_nonce q < 2 ^ 64 /\
  (length (cl_hash q) = 32%nat -> served d (cl_height q / cf_epoch_length d)).

(** The answer to a call: an error if the length is wrong, else one that fits. *)
Definition answer {R} (fits : list N -> N -> N -> R -> Prop) (q : call) (a : option R) : Prop :=
  if (length (cl_hash q) =? 32)%nat then exists x, a = Some x /\ fits (cl_hash q) (cl_height q) (cl_nonce q) x
  else a = None.

Section Shipped.
Variables keccak256 keccak512 : list N -> list N.
Variable pp : N -> bool.
Variable fuel : nat.
Variable dir : list N.
Hypothesis H256 : hash_ok 32 keccak256.
Hypothesis H512 : hash_ok 64 keccak512.
Hypothesis PP : primality_test pp.
Hypothesis F : 2 ^ 31 <= N.of_nat fuel.

Notation cacheN d e := (cf_cache_init d + cf_cache_growth d * e).
Notation datasetN d e := (cf_dataset_init d + cf_dataset_growth d * e).

Definition place (d : config) (e : N) : N := (e * cf_epoch_length d + 1) / cf_seed_epoch_length d.

Lemma shipped_facts d : In d (shipped dir) ->
  0 < cf_seed_epoch_length d /\ (1 <= cf_caches_count d)%Z /\ cf_l1_cache_size d = 4 * cf_l1_cache_num_items d /\
  cf_l1_cache_size d mod 64 = 0 /\ cf_l1_cache_size d < 2 ^ 38 /\ 0 < cf_epoch_length d /\ cf_cache_rounds d = 3.
Proof. unfold shipped. cbn [In]. intros [<-|[<-|[<-|[<-|[<-|[]]]]]]; cbn; lia. Qed.

Lemma the_item_dataset d e cs : In d (shipped dir) ->
  the_item keccak256 keccak512 d e cs = dataset keccak256 keccak512 (N.to_nat (cf_dataset_parents d)) (place d e) cs.
Proof.
  intros HI. destruct (shipped_facts d HI) as (_ & _ & _ & _ & _ & _ & CR).
  unfold the_item, the_cache, dataset, spec_rows, epoch_seed, place. rewrite CR. reflexivity.
Qed.

Lemma shipped_call {R} d unit (eval : N -> list N -> list N -> outcome R) order now r hash height (fits : R -> Prop) :
  In (d, unit) (shipped_units dir) -> (forall m, Permutation m (order m)) -> wf (cf_caches_count d) r ->
  length hash = 32%nat -> served d (height / cf_epoch_length d) ->
  (forall cs ds, let e := height / cf_epoch_length d in
     prime_size (cacheN d e) 64 cs -> prime_size (datasetN d e) unit ds -> epoch_ok pp fuel d e cs ->
     256 <= ds -> ds < 2 ^ 38 ->
     exists x, eval ds (concat (the_cache keccak256 keccak512 d e cs)) (the_l1 keccak256 keccak512 d e cs) = Done x /\ fits x) ->
  exists r' x, computeWith keccak256 keccak512 pp fuel eval d order now r hash height = Done (r', Some x) /\
    wf (cf_caches_count d) r' /\ fits x.
Proof.
  intros HI PO W LH SV EV. pose proof (shipped_of_units dir d unit HI) as HD.
  destruct (shipped_facts d HD) as (F1 & F2 & F3 & F4 & F5 & F6 & F7).
  set (e := height / cf_epoch_length d) in *.
  destruct (epoch_ok_served pp fuel dir d e PP F HD) as (cs & OK & CS).
  { destruct SV as [S|(_ & S1 & S2 & _)]; [left; lia|right]. split; [exact S1|]. nia. }
  destruct (epoch_ok_served pp fuel dir d (e + 1) PP F HD) as (cs' & OK' & _).
  { destruct SV as [S|(_ & S1 & S2 & _)]; [left; lia|right]. split; [lia|exact S2]. }
  destruct (dataset_size_served pp fuel dir d unit e PP F HI) as (ds & DS & DP).
  { destruct SV as [S|(S0 & S1 & _ & S3)]; [left; lia|right]. auto. }
  assert (U : 128 <= unit /\ datasetN d e <= 2 ^ 38).
  { assert (X : 128 <= unit /\ cf_dataset_growth d <= 16777216 /\ cf_dataset_init d <= 4294967296).
    { clear -HI. unfold shipped_units in HI. cbn [In] in HI.
      destruct HI as [E|[E|[E|[E|[E|[]]]]]]; injection E as <- <-; cbn; lia. }
    split; [apply X|]. destruct SV as [S|(_ & _ & _ & S)]; [|exact S]. change (2 ^ 38) with 274877906944. nia. }
  destruct U as (U1 & U2).
  destruct (prime_size_bounds _ unit ds ltac:(lia) DP) as (B1 & B2 & B3).
  destruct (EV cs ds CS DP OK) as (x & EX & FX); [lia|lia|].
  assert (EL : e < 2 ^ 64 - 1).
  { destruct OK as (O1 & _). clear -O1 F6. change (2 ^ 63) with 9223372036854775808 in O1.
    change (2 ^ 64) with 18446744073709551616. nia. }
  destruct (computeWith_spec keccak256 keccak512 pp fuel H256 H512 d F1 F2 F3 F4 F5 eval order now r hash height e cs cs' ds x)
    as (r' & E & W'); auto.
  - unfold lenN. rewrite LH. reflexivity.
  - unfold CalcEpoch, divc. destruct (N.eqb_spec (cf_epoch_length d) 0); [lia|reflexivity].
  - exists r', x. auto.
Qed.

(** A client whose single calls are answered answers every sequence of calls. *)
Lemma serve_all {R} d (compute : (list (N * cobj) -> list (N * cobj)) -> Z -> registry -> list N -> N -> N -> outcome (registry * option R)) fits :
  (forall q r, served_call d q -> wf (cf_caches_count d) r ->
     exists r' a, compute (cl_order q) (cl_now q) r (cl_hash q) (cl_height q) (cl_nonce q) = Done (r', a) /\
       wf (cf_caches_count d) r' /\ answer fits q a) ->
  forall calls r, Forall (served_call d) calls -> wf (cf_caches_count d) r ->
  exists r' answers, serve compute calls r = Done (r', answers) /\ Forall2 (answer fits) calls answers.
Proof.
  intros ONE calls. induction calls as [|q calls IH]; intros r FA W.
  - exists r, []. split; [reflexivity|constructor].
  - inversion FA as [|? ? SQ FA']; subst. destruct (ONE q r SQ W) as (r1 & a & E & W1 & A).
    destruct (IH r1 FA' W1) as (r2 & xs & E2 & A2). cbn [serve]. rewrite E. cbn [bind]. rewrite E2. cbn [bind].
    exists r2, (a :: xs). split; [reflexivity|]. constructor; auto.
Qed.

Lemma wrong_length {R} (eval : N -> list N -> list N -> outcome R) d order now r hash height :
  length hash <> 32%nat -> computeWith keccak256 keccak512 pp fuel eval d order now r hash height = Done (r, None).
Proof. intros L. unfold computeWith, lenN. destruct (N.eqb_spec (N.of_nat (length hash)) 32); [lia|reflexivity]. Qed.

(** ** C12: the answers *)

(** Ethash of a chain: hashimoto over the dataset of the epoch, whose cache is grown from place [position] of the
    seed chain; [cs] and [ds] are the sizes of the cache and of the dataset in bytes. *)
Definition ethash_fits (epoch_length : N) (position : N -> N) (hash : list N) (height nonce : N) (x : list N * list N) : Prop :=
  let e := height / epoch_length in
  exists cs ds, prime_size (2 ^ 24 + 2 ^ 17 * e) 64 cs /\ prime_size (2 ^ 30 + 2 ^ 23 * e) 128 ds /\
    x = hashimoto_spec keccak512 keccak256 hash nonce (ds / 128) (dataset keccak256 keccak512 256 (position e) cs).
Definition progpow_fits (epoch_length period init : N) (seed_pad digest_pad : list N) (hash : list N) (height nonce : N)
    (x : list N * list N) : Prop :=
  let e := height / epoch_length in
  exists cs ds, prime_size (2 ^ 24 + 2 ^ 17 * e) 64 cs /\ prime_size (init + 2 ^ 23 * e) 128 ds /\
    let item := dataset keccak256 keccak512 512 e cs in
    x = pow_spec (keccak_f 32) seed_pad digest_pad
          (standard_mix period height (first_items item) (ds / 256) (page item)) hash nonce.
(** [c] is the constant coefficient that C33 describes. *)
Definition octopus_fits (hash : list N) (height nonce : N) (x : list N) : Prop :=
  let e := height / 2 ^ 19 in
  exists cs ds, prime_size (2 ^ 24 + 2 ^ 16 * e) 64 cs /\ prime_size (2 ^ 32 + 2 ^ 24 * e) 256 ds /\
    exists k, k <= 4 /\
    let a := coefficient (word64 hash 0) in
    let b := coefficient (word64 hash 1) in
    let c j := coefficient ((word64 hash 2 + j) mod 2 ^ 64) in
    (forall j, j < k -> degenerate a b (c j)) /\ ~ degenerate a b (c k) /\
    x = octopus_spec keccak512 keccak256 hash (c k) nonce (ds / 256) (dataset keccak256 keccak512 256 e cs).

Lemma ethash_one d EL position : In (d, 128) (shipped_units dir) ->
  cf_epoch_length d = EL -> cf_cache_init d = 2 ^ 24 -> cf_cache_growth d = 2 ^ 17 ->
  cf_dataset_init d = 2 ^ 30 -> cf_dataset_growth d = 2 ^ 23 -> cf_dataset_parents d = 256 ->
  (forall e, place d e = position e) ->
  forall q r, served_call d q -> wf (cf_caches_count d) r ->
  exists r' a, Compute_ethash keccak256 keccak512 pp fuel d (cl_order q) (cl_now q) r (cl_hash q) (cl_height q) (cl_nonce q) = Done (r', a) /\
    wf (cf_caches_count d) r' /\ answer (ethash_fits EL position) q a.
Proof.
  intros HI E1 E2 E3 E4 E5 E6 PL q r (PO & BH & NB & SV) W. unfold Compute_ethash, answer.
  destruct (Nat.eqb_spec (length (cl_hash q)) 32) as [L|L].
  - pose proof (shipped_of_units dir d 128 HI) as HD. destruct (shipped_facts d HD) as (F1 & F2 & F3 & F4 & F5 & F6 & F7).
    destruct (shipped_call d 128 (fun size cache _ => hashimoto keccak512 keccak256 (cl_hash q) (cl_nonce q) size (NewLookupFunc512 keccak512 d cache))
      (cl_order q) (cl_now q) r (cl_hash q) (cl_height q) (ethash_fits EL position (cl_hash q) (cl_height q) (cl_nonce q)) HI PO W L (SV L))
      as (r' & x & E & W' & X).
    + intros cs ds e CS DS OK B1 B2. eexists. split.
      * apply (C22_hashimoto keccak512 keccak256 (cl_hash q) (cl_nonce q) ds _ (the_item keccak256 keccak512 d e cs)); auto; [lia|lia|].
        intros i Hi. split; [|apply the_item_ok; auto].
        apply lookup512 with (pp := pp) (fuel := fuel); auto. clear -Hi B2. change (2 ^ 38) with 274877906944 in B2. change (2 ^ 32) with 4294967296. lia.
      * unfold ethash_fits. rewrite <- E1. fold e. exists cs, ds. rewrite E2, E3 in CS. rewrite E4, E5 in DS.
        split; [exact CS|]. split; [exact DS|]. rewrite the_item_dataset by auto. rewrite E6, PL. reflexivity.
    + exists r', (Some x). split; [exact E|]. split; [exact W'|]. exists x. auto.
  - exists r, None. rewrite wrong_length by auto. auto.
Qed.

Theorem C12_ethereum calls : Forall (served_call (cfg_ethereum dir)) calls ->
  exists r answers, serve (Compute_ethash keccak256 keccak512 pp fuel (cfg_ethereum dir)) calls empty_registry = Done (r, answers) /\
    Forall2 (answer (ethash_fits 30000 (fun e => e))) calls answers.
Proof.
  intros FA. apply (serve_all (cfg_ethereum dir)); auto; [|apply wf_empty; cbn; lia].
  apply ethash_one; try reflexivity; [cbn; auto|]. intros e. unfold place. cbn [cf_epoch_length cf_seed_epoch_length cfg_ethereum]. lia.
Qed.
Theorem C12_ethereum_classic calls : Forall (served_call (cfg_ethereum_classic dir)) calls ->
  exists r answers, serve (Compute_ethash keccak256 keccak512 pp fuel (cfg_ethereum_classic dir)) calls empty_registry = Done (r, answers) /\
    Forall2 (answer (ethash_fits 60000 (fun e => 2 * e))) calls answers.
Proof.
  intros FA. apply (serve_all (cfg_ethereum_classic dir)); auto; [|apply wf_empty; cbn; lia].
  apply ethash_one; try reflexivity; [cbn; auto|]. intros e. unfold place. cbn [cf_epoch_length cf_seed_epoch_length cfg_ethereum_classic]. lia.
Qed.


Lemma the_l1_first d e cs : In d (shipped dir) -> cf_l1_enabled d = true -> cf_l1_cache_num_items d = 4096 ->
  the_l1 keccak256 keccak512 d e cs =
  first_items (dataset keccak256 keccak512 (N.to_nat (cf_dataset_parents d)) (place d e) cs).
Proof.
  intros HI EN L. unfold the_l1, first_items. rewrite EN, L, the_item_dataset by auto. reflexivity.
Qed.

Lemma progpow_one d EL period init sp dp (fn : list N -> N -> N -> N -> (N -> outcome (list N)) -> list N -> outcome (list N * list N)) :
  In (d, 128) (shipped_units dir) ->
  cf_epoch_length d = EL -> cf_cache_init d = 2 ^ 24 -> cf_cache_growth d = 2 ^ 17 ->
  cf_dataset_init d = init -> cf_dataset_growth d = 2 ^ 23 -> cf_dataset_parents d = 512 ->
  cf_l1_enabled d = true -> cf_l1_cache_num_items d = 4096 ->
  (forall e, place d e = e) ->
  (forall hash height nonce size lookup page l1,
     length hash = 32%nat /\ bytes hash -> nonce < 2 ^ 64 -> 256 <= size /\ size / 256 < 2 ^ 32 ->
     (forall i, i < size / 256 -> lookup i = Done (page i) /\ length (page i) = 64%nat /\ words 32 (page i)) ->
     length l1 = N.to_nat 4096 /\ words 32 l1 ->
     fn hash height nonce size lookup l1 =
     Done (pow_spec (keccak_f 32) sp dp (standard_mix period height l1 (size / 256) page) hash nonce)) ->
  forall q r, served_call d q -> wf (cf_caches_count d) r ->
  exists r' a, computeWith keccak256 keccak512 pp fuel
      (fun size cache l1 => fn (cl_hash q) (cl_height q) (cl_nonce q) size (NewLookupFunc2048 keccak512 d cache) l1)
      d (cl_order q) (cl_now q) r (cl_hash q) (cl_height q) = Done (r', a) /\
    wf (cf_caches_count d) r' /\ answer (progpow_fits EL period init sp dp) q a.
Proof.
  intros HI E1 E2 E3 E4 E5 E6 EN EM PL FN q r (PO & BH & NB & SV) W. unfold answer.
  destruct (Nat.eqb_spec (length (cl_hash q)) 32) as [L|L].
  - pose proof (shipped_of_units dir d 128 HI) as HD. destruct (shipped_facts d HD) as (F1 & F2 & F3 & F4 & F5 & F6 & F7).
    destruct (shipped_call d 128 (fun size cache l1 => fn (cl_hash q) (cl_height q) (cl_nonce q) size (NewLookupFunc2048 keccak512 d cache) l1)
      (cl_order q) (cl_now q) r (cl_hash q) (cl_height q) (progpow_fits EL period init sp dp (cl_hash q) (cl_height q) (cl_nonce q)) HI PO W L (SV L))
      as (r' & x & E & W' & X).
    + intros cs ds e CS DS OK B1 B2. change (2 ^ 38) with 274877906944 in B2. eexists. split.
      * apply (FN _ _ _ _ _ (page (the_item keccak256 keccak512 d e cs))); auto.
        -- split; [lia|]. change (2 ^ 32) with 4294967296. lia.
        -- intros i Hi. split; [|apply page_ok; auto].
           apply lookup2048 with (pp := pp) (fuel := fuel); auto. change (2 ^ 30) with 1073741824. clear -Hi B2. lia.
        -- rewrite <- EM. apply the_l1_ok; auto.
      * unfold progpow_fits. rewrite <- E1. fold e. exists cs, ds. rewrite E2, E3 in CS. rewrite E4, E5 in DS.
        split; [exact CS|]. split; [exact DS|]. cbv zeta. rewrite the_l1_first, the_item_dataset by auto. rewrite E6, PL. reflexivity.
    + exists r', (Some x). split; [exact E|]. split; [exact W'|]. exists x. auto.
  - exists r, None. rewrite wrong_length by auto. auto.
Qed.

Theorem C12_ravencoin calls : Forall (served_call (cfg_ravencoin dir)) calls ->
  exists r answers, serve (Compute_kawpow keccak256 keccak512 pp fuel (cfg_ravencoin dir)) calls empty_registry = Done (r, answers) /\
    Forall2 (answer (progpow_fits 7500 3 (2 ^ 30) kawpow_seed_pad kawpow_digest_pad)) calls answers.
Proof.
  intros FA. apply (serve_all (cfg_ravencoin dir)); auto; [|apply wf_empty; cbn; lia].
  apply progpow_one; try reflexivity; [cbn; auto| |].
  - intros e. unfold place. cbn [cf_epoch_length cf_seed_epoch_length cfg_ravencoin]. lia.
  - intros. apply C30_kawpow; auto.
Qed.
Theorem C12_firo calls : Forall (served_call (cfg_firo dir)) calls ->
  exists r answers, serve (Compute_firopow keccak256 keccak512 pp fuel (cfg_firo dir)) calls empty_registry = Done (r, answers) /\
    Forall2 (answer (progpow_fits 1300 1 (2 ^ 30 + 2 ^ 29) firopow_seed_pad firopow_digest_pad)) calls answers.
Proof.
  intros FA. apply (serve_all (cfg_firo dir)); auto; [|apply wf_empty; cbn; lia].
  apply progpow_one; try reflexivity; [cbn; auto 10| |].
  - intros e. unfold place. cbn [cf_epoch_length cf_seed_epoch_length cfg_firo]. lia.
  - intros. apply C30_firopow; auto.
Qed.

Lemma conflux_one q r : served_call (cfg_conflux dir) q -> wf (cf_caches_count (cfg_conflux dir)) r ->
  exists r' a, Compute_octopus keccak256 keccak512 pp fuel (cfg_conflux dir) (cl_order q) (cl_now q) r (cl_hash q) (cl_height q) (cl_nonce q) = Done (r', a) /\
    wf (cf_caches_count (cfg_conflux dir)) r' /\ answer octopus_fits q a.
Proof.
  revert q r.
  set (d := cfg_conflux dir). assert (HI : In (d, 256) (shipped_units dir)) by (cbn; auto 10).
  intros q r (PO & BH & NB & SV) W. unfold answer.
  destruct (Nat.eqb_spec (length (cl_hash q)) 32) as [L|L].
  - pose proof (shipped_of_units dir d 256 HI) as HD. destruct (shipped_facts d HD) as (F1 & F2 & F3 & F4 & F5 & F6 & F7).
    destruct (shipped_call d 256 (fun size cache _ => octopus fuel keccak512 keccak256 (cl_hash q) (cl_nonce q) size (NewLookupFunc512 keccak512 d cache))
      (cl_order q) (cl_now q) r (cl_hash q) (cl_height q) (octopus_fits (cl_hash q) (cl_height q) (cl_nonce q)) HI PO W L (SV L))
      as (r' & x & E & W' & X).
    + intros cs ds e CS DS OK B1 B2. change (2 ^ 38) with 274877906944 in B2.
      destruct (C35_digest fuel keccak512 keccak256 (cl_hash q) (cl_nonce q) ds
        (NewLookupFunc512 keccak512 d (concat (the_cache keccak256 keccak512 d e cs))) (the_item keccak256 keccak512 d e cs))
        as (k & K & D1 & D2 & EQ); auto.
      * change (2 ^ 31) with 2147483648 in F. clear -F. lia.
      * change (2 ^ 38) with 274877906944. lia.
      * intros i Hi. split; [|apply the_item_ok; auto].
        apply lookup512 with (pp := pp) (fuel := fuel); auto. change (2 ^ 32) with 4294967296. clear -Hi B2. lia.
      * eexists. split; [exact EQ|]. unfold octopus_fits. cbv zeta. change (cl_height q / 2 ^ 19) with e. exists cs, ds.
        split; [exact CS|]. split; [exact DS|]. exists k. split; [exact K|]. split; [exact D1|]. split; [exact D2|].
        rewrite the_item_dataset by auto. replace (place d e) with e; [reflexivity|].
        unfold place. change (cf_epoch_length d) with 524288. change (cf_seed_epoch_length d) with 524288. lia.
    + exists r', (Some x). split; [exact E|]. split; [exact W'|]. exists x. auto.
  - exists r, None. unfold Compute_octopus. rewrite wrong_length by auto. auto.
Qed.

Theorem C12_conflux calls : Forall (served_call (cfg_conflux dir)) calls ->
  exists r answers, serve (Compute_octopus keccak256 keccak512 pp fuel (cfg_conflux dir)) calls empty_registry = Done (r, answers) /\
    Forall2 (answer octopus_fits) calls answers.
Proof.
  intros FA. apply (serve_all (cfg_conflux dir)); auto; [|apply wf_empty; cbn; lia]. exact conflux_one.
Qed.

(** ** C12: the heights it fails at *)

(** The registry of a client that has only been asked for epochs below [b]. *)
Definition below (b : N) (r : registry) : Prop :=
  (forall k c, In (k, c) (rg_caches r) -> k < b) /\ (forall f, rg_future r = Some f -> co_epoch f <= b).

Lemma below_step d order now e b r r' c sp :
  (1 <= cf_caches_count d)%Z -> (forall m, Permutation m (order m)) -> e < 2 ^ 64 - 1 -> wf (cf_caches_count d) r ->
  get_locked d order now e r = Done (r', c, sp) -> e < b -> below b r -> below b r'.
Proof.
  intros CC PO B W G L (B1 & B2). destruct (get_locked_spec d order now e r CC PO B W) as (r1 & c1 & sp1 & G1 & _ & _ & _ & _ & M).
  rewrite G in G1. injection G1 as <- <- <-.
  assert (SET : forall m, (forall k x, In (k, x) m -> k < b) -> forall k x, In (k, x) (map_set e c m) -> k < b).
  { intros m Hm k x [X|X]; [congruence|]. apply filter_In in X. apply (Hm k x). apply X. }
  destruct (map_get e (rg_caches r)).
  - destruct M as (_ & _ & MC & MF & _). split; [rewrite MC; apply SET; exact B1|rewrite MF; exact B2].
  - destruct M as ((m & K & MC) & _ & MF). split.
    + rewrite MC. apply SET. unfold kept in K. destruct (_ <=? _)%Z.
      * destruct K as (k & ev & _ & _ & ->). intros k' x X. apply filter_In in X. apply (B1 k' x). apply X.
      * subst m. exact B1.
    + destruct sp as [f|].
      * destruct MF as (MF & FE & _). rewrite MF. intros f' X. injection X as <-. lia.
      * destruct MF as (MF & _). rewrite MF. exact B2.
Qed.

Lemma tables_2045 d : In d (shipped dir) -> CacheSize pp fuel d 2045 = Panic.
Proof.
  unfold shipped. cbn [In]. intros [<-|[<-|[<-|[<-|[<-|[]]]]]]; unfold CacheSize;
    cbn [cf_cache_sizes cfg_ethereum cfg_ethereum_classic cfg_ravencoin cfg_firo cfg_conflux NewLookupTable lt_max lt_table];
    change (2045 <? 2048) with true; cbv iota; apply idx_Panic;
    rewrite ?kawpow_cacheSizes_eq, ?firopow_cacheSizes_eq, ?ethash_cacheSizes_len, ?octopus_cacheSizes_len; lia.
Qed.
Lemma tables_gap d e : In d (shipped dir) -> 2045 <= e < 2048 -> DatasetSize pp fuel d e = Panic.
Proof.
  unfold shipped. cbn [In]. intros HI HE. assert (LT : (e <? 2048) = true) by (clear -HE; lia).
  destruct HI as [<-|[<-|[<-|[<-|[<-|[]]]]]]; unfold DatasetSize;
    cbn [cf_dataset_sizes cfg_ethereum cfg_ethereum_classic cfg_ravencoin cfg_firo cfg_conflux NewLookupTable lt_max lt_table];
    rewrite LT; apply idx_Panic;
    rewrite ?kawpow_datasetSizes_eq, ?ethash_datasetSizes_len, ?firopow_datasetSizes_len, ?octopus_datasetSizes_len; lia.
Qed.

(** The background generation for epoch 2045 reads past the end of the table. *)
Lemma call_2044 {R} d (eval : N -> list N -> list N -> outcome R) order now r hash height :
  In d (shipped dir) -> (forall m, Permutation m (order m)) -> wf (cf_caches_count d) r -> below 2044 r ->
  length hash = 32%nat -> height / cf_epoch_length d = 2044 ->
  computeWith keccak256 keccak512 pp fuel eval d order now r hash height = Panic.
Proof.
  intros HD PO W (B1 & B2) LH HE. destruct (shipped_facts d HD) as (F1 & F2 & F3 & F4 & F5 & F6 & F7).
  unfold computeWith, lenN. rewrite LH. change (N.of_nat 32) with 32. change (negb (32 =? 32)) with false. cbv iota.
  unfold CalcEpoch, divc. destruct (N.eqb_spec (cf_epoch_length d) 0); [lia|]. cbn [bind]. rewrite HE.
  assert (HU : exists unit, In (d, unit) (shipped_units dir)).
  { clear -HD. unfold shipped in HD. cbn [In] in HD. destruct HD as [<-|[<-|[<-|[<-|[<-|[]]]]]]; cbn; eauto 10. }
  destruct HU as (unit & HU).
  destruct (C10_dataset_tables pp fuel dir d unit 2044 HU ltac:(lia)) as (ds & DS & _). rewrite DS. cbn [bind].
  destruct (get_locked_spec d order now 2044 r F2 PO ltac:(reflexivity) W) as (r1 & c & sp & G & W1 & CE & _ & _ & M).
  unfold GetCache. rewrite G. cbn [bind]. rewrite CE.
  destruct (epoch_ok_served pp fuel dir d 2044 PP F HD ltac:(left; lia)) as (cs & OK & _).
  rewrite (generate_spec keccak256 keccak512 pp fuel H256 H512 d F1 F3 F4 F5 2044 cs OK). cbn [bind].
  destruct (map_get 2044 (rg_caches r)) as [c0|] eqn:MG.
  { apply map_get_In in MG. apply B1 in MG. lia. }
  destruct M as (_ & _ & M). destruct sp as [f|].
  - destruct M as (_ & FE & _). rewrite FE. change (2044 + 1) with 2045. unfold generate. rewrite tables_2045 by auto. reflexivity.
  - destruct M as (_ & f & FF & FL). apply B2 in FF. lia.
Qed.

(** Whatever a client has answered in earlier epochs, its first call in epoch 2044 ends the process. *)
Definition earlier_call (d : config) (q : call) : Prop :=
  (forall m, Permutation m (cl_order q m)) /\ cl_height q / cf_epoch_length d < 2044.

Lemma serve_then_2044 {R} d (ev : list N -> N -> N -> N -> list N -> list N -> outcome R) calls q r :
  In d (shipped dir) -> wf (cf_caches_count d) r -> below 2044 r -> Forall (earlier_call d) calls ->
  (forall m, Permutation m (cl_order q m)) -> length (cl_hash q) = 32%nat -> cl_height q / cf_epoch_length d = 2044 ->
  forall out, serve (fun order now r hash height nonce =>
      computeWith keccak256 keccak512 pp fuel (ev hash height nonce) d order now r hash height) (calls ++ [q]) r <> Done out.
Proof.
  intros HD W B FA PO LH HE. destruct (shipped_facts d HD) as (F1 & F2 & F3 & F4 & F5 & F6 & F7).
  revert r W B FA. induction calls as [|p calls IH]; intros r W B FA out; cbn [app serve].
  - rewrite call_2044 by auto. discriminate.
  - inversion FA as [|? ? (PP' & PE) FA']; subst.
    destruct (computeWith _ _ _ _ _ _ _ _ r _ _) as [(r1 & a)| |] eqn:E; cbn [bind]; try discriminate.
    assert (EB : cl_height p / cf_epoch_length d < 2 ^ 64 - 1).
    { change (2 ^ 64) with 18446744073709551616. lia. }
    destruct (computeWith_inv keccak256 keccak512 pp fuel d F2 _ _ _ r _ _ r1 a PP' W EB E) as [(_ & -> & _)|(_ & X)].
    + intros Y. destruct (serve _ (calls ++ [q]) r) as [out'| |] eqn:S; cbn [bind] in Y; try discriminate.
      exact (IH r W B FA' out' S).
    + cbv zeta in X. destruct X as (ds & cache & l1 & x & c & sp & _ & _ & _ & _ & _ & G & W1).
      assert (B1 : below 2044 r1) by (apply (below_step d (cl_order p) (cl_now p) (cl_height p / cf_epoch_length d) 2044 r r1 c sp); assumption).
      intros Y. destruct (serve _ (calls ++ [q]) r1) as [out'| |] eqn:S; cbn [bind] in Y; try discriminate.
      exact (IH r1 W1 B1 FA' out' S).
Qed.

Lemma below_empty b : below b empty_registry.
Proof. split; [intros ? ? []|discriminate]. Qed.

(** No history of earlier epochs leads to an answer in epoch 2044; a fresh client panics there at once. *)
Theorem C12_epoch_2044_refuted calls q :
  (forall m, Permutation m (cl_order q m)) -> length (cl_hash q) = 32%nat ->
  let never {R} d (compute : _ -> (list (N * cobj) -> list (N * cobj)) -> Z -> registry -> list N -> N -> N -> outcome (registry * option R)) :=
    Forall (earlier_call d) calls -> cl_height q / cf_epoch_length d = 2044 ->
    compute d (cl_order q) (cl_now q) empty_registry (cl_hash q) (cl_height q) (cl_nonce q) = Panic /\
    forall out, serve (compute d) (calls ++ [q]) empty_registry <> Done out in
  never (cfg_ethereum dir) (Compute_ethash keccak256 keccak512 pp fuel) /\
  never (cfg_ethereum_classic dir) (Compute_ethash keccak256 keccak512 pp fuel) /\
  never (cfg_ravencoin dir) (Compute_kawpow keccak256 keccak512 pp fuel) /\
  never (cfg_firo dir) (Compute_firopow keccak256 keccak512 pp fuel) /\
  never (cfg_conflux dir) (Compute_octopus keccak256 keccak512 pp fuel).
Proof.
  intros PO LH never. subst never. cbv beta.
  assert (I : forall d, In d (shipped dir) -> wf (cf_caches_count d) empty_registry).
  { intros d HD. apply wf_empty. pose proof (shipped_facts d HD). lia. }
  split; [|split; [|split; [|split]]]; intros FA HE;
    (split; [apply call_2044|apply (serve_then_2044 _ _ calls q)]);
    auto using below_empty; try (apply I); unfold shipped; cbn [In]; auto 10.
Qed.

(** The tables have no entries for epochs 2045 to 2047. *)
Theorem C12_gap_refuted order now r hash height nonce :
  length hash = 32%nat ->
  let panics {R} d (compute : _ -> (list (N * cobj) -> list (N * cobj)) -> Z -> registry -> list N -> N -> N -> outcome (registry * option R)) :=
    2045 <= height / cf_epoch_length d < 2048 -> compute d order now r hash height nonce = Panic in
  panics (cfg_ethereum dir) (Compute_ethash keccak256 keccak512 pp fuel) /\
  panics (cfg_ethereum_classic dir) (Compute_ethash keccak256 keccak512 pp fuel) /\
  panics (cfg_ravencoin dir) (Compute_kawpow keccak256 keccak512 pp fuel) /\
  panics (cfg_firo dir) (Compute_firopow keccak256 keccak512 pp fuel) /\
  panics (cfg_conflux dir) (Compute_octopus keccak256 keccak512 pp fuel).
Proof.
  intros LH panics. subst panics. cbv beta.
  assert (P : forall R d (eval : N -> list N -> list N -> outcome R), In d (shipped dir) -> 2045 <= height / cf_epoch_length d < 2048 ->
    computeWith keccak256 keccak512 pp fuel eval d order now r hash height = Panic).
  { intros R d eval HD HE. destruct (shipped_facts d HD) as (F1 & F2 & F3 & F4 & F5 & F6 & F7).
    unfold computeWith, lenN. rewrite LH. change (N.of_nat 32) with 32. change (negb (32 =? 32)) with false. cbv iota.
    unfold CalcEpoch, divc. destruct (N.eqb_spec (cf_epoch_length d) 0); [lia|]. cbn [bind].
    rewrite tables_gap by auto. reflexivity. }
  split; [|split; [|split; [|split]]]; intros HE; apply P; auto; unfold shipped; cbn [In]; auto 10.
Qed.

(** Ethereum Classic divides by its MixBytes of zero from epoch 2048 on. *)
Theorem C12_classic_refuted order now r hash height nonce :
  length hash = 32%nat -> 2048 <= height / 60000 ->
  Compute_ethash keccak256 keccak512 pp fuel (cfg_ethereum_classic dir) order now r hash height nonce = Panic.
Proof.
  intros LH HE. unfold Compute_ethash, computeWith, lenN. rewrite LH. change (N.of_nat 32) with 32. change (negb (32 =? 32)) with false. cbv iota.
  unfold CalcEpoch, divc. change (cf_epoch_length (cfg_ethereum_classic dir)) with 60000. change (60000 =? 0) with false. cbv iota. cbn [bind].
  unfold DatasetSize. cbn [cf_dataset_sizes cfg_ethereum_classic NewLookupTable lt_max lt_table].
  assert (LT : (height / 60000 <? 2048) = false) by (clear -HE; lia). rewrite LT.
  assert (FP : exists n, fuel = Datatypes.S n).
  { change (2 ^ 31) with 2147483648 in F. clear -F. destruct fuel; [cbn in F; lia|eauto]. }
  destruct FP as (n & ->). reflexivity.
Qed.
End Shipped.
Print Assumptions C12_ethereum.
Print Assumptions C12_ethereum_classic.
Print Assumptions C12_ravencoin.
Print Assumptions C12_firo.
Print Assumptions C12_conflux.
Print Assumptions C12_epoch_2044_refuted.
Print Assumptions C12_gap_refuted.
Print Assumptions C12_classic_refuted.
