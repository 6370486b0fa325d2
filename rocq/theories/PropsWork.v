(** C74: how much of the dataset, of the cache and of the hash function a verification consults. *)
From Coq Require Import NArith ZArith Arith List Bool Lia ZifyBool ZifyN ZifyNat.
From Verif Require Import Base BaseFacts CryptoModel DagModel DagSpec DagContent EthashModel ProgpowModel OctopusModel Hashes PropsDagContent Work.
Import ListNotations.
Open Scope N_scope.

(** Any answer is possible. *)
Definition any {B} : B -> Prop := fun _ => True.

(** What a bound on the questions means: for each function the result is fixed by that many of its values. *)
Theorem C74_determined {A B R} (W : B -> Prop) n (f : (A -> B) -> R) : asks W n f ->
  forall o, (forall a, W (o a)) -> exists asked, (length asked <= n)%nat /\
  forall o', (forall a, W (o' a)) -> (forall a, In a asked -> o' a = o a) -> f o' = f o.
Proof. exact (asks_determined W n f). Qed.
Print Assumptions C74_determined.
(** The notion has content: two values can not be found by one question. *)
Example C74_two_questions : asks any 2 (fun o : N -> N => o 0 + o 1) /\ ~ asks any 1 (fun o : N -> N => o 0 + o 1).
Proof.
  split.
  - ask_at 0. ask_at 1. apply asks_const.
  - intros H. destruct (C74_determined any 1 _ H (fun _ => 0) (fun _ => I)) as (l & L & D).
    assert (E : forall a, (a = 0 \/ a = 1) -> In a l).
    { intros a Ha. destruct (in_dec N.eq_dec a l) as [|NI]; [assumption|]. exfalso.
      assert (Q := D (fun x => if x =? a then 1 else 0) (fun _ => I)).
      assert (F : forall b, In b l -> (if b =? a then 1 else 0) = 0).
      { intros b Hb. destruct (N.eqb_spec b a) as [->|]; [contradiction|reflexivity]. }
      specialize (Q F). destruct Ha as [-> | ->]; cbn in Q; discriminate. }
    assert (I0 := E 0 (or_introl eq_refl)). assert (I1 := E 1 (or_intror eq_refl)).
    destruct l as [|x [|]]; cbn [length In] in *; [contradiction| |lia].
    destruct I0 as [Q0|[]]. destruct I1 as [Q1|[]]. subst x. discriminate.
Qed.

(** ** Dataset items *)

(** Ethash consults at most 128 items of the dataset, of 64 bytes each. *)
Theorem C74_ethash_items H512 H256 hash nonce size :
  asks any 128 (fun dataset : N -> outcome (list N) => hashimoto H512 H256 hash nonce size dataset).
Proof.
  unfold hashimoto. cbv zeta. do 6 (apply asks_bind0; intro).
  apply (asks_mono (128 + 0)); [lia|]. apply (asks_bind 128 0 _ (fun st _ => _)); [|intros st; apply asks_const].
  apply (asks_for_n hashimotoRounds 2 (fun i st o => _)). intros i st. destruct st as [mix temp].
  do 2 (apply asks_bind0; intro).
  apply (asks_last 2). apply (asks_for_n (mixBytes / EthashModel.hashBytes) 1 (fun j t o => _)). intros j t.
  apply (asks_last 1). apply asks_one.
Qed.
Print Assumptions C74_ethash_items.

(** ProgPoW consults one page of 256 bytes per round: 64 of them in the three variants. *)
Theorem C74_progpow_pages cfg height seed size l1 :
  asks any (N.to_nat (RoundCount cfg)) (fun dataset : N -> outcome (list N) => Hash cfg height seed size dataset l1).
Proof.
  unfold Hash. do 2 (apply asks_bind0; intro).
  apply asks_last. apply (asks_mono (N.to_nat (RoundCount cfg) * 1)); [lia|].
  apply (asks_for_n (RoundCount cfg) 1 (fun j t o => _)). intros j t. unfold round. cbv zeta.
  do 5 (apply asks_bind0; intro). apply asks_last. apply asks_one.
Qed.
Print Assumptions C74_progpow_pages.
Theorem C74_variants_pages fn hash height nonce size l1 :
  In fn [kawpow; firopow; progpow094] ->
  asks any 64 (fun dataset : N -> outcome (list N) => fn hash height nonce size dataset l1).
Proof.
  intros I. repeat destruct I as [<-|I]; try contradiction.
  - unfold kawpow. apply asks_bind0; intros [s h]. apply asks_last. exact (C74_progpow_pages kawpow_cfg height h size l1).
  - unfold firopow. apply asks_bind0; intros [s h]. apply asks_last. exact (C74_progpow_pages firopow_cfg height h size l1).
  - unfold progpow094. apply asks_bind0; intros [s h]. apply asks_last. exact (C74_progpow_pages progpow094_cfg height h size l1).
Qed.
Print Assumptions C74_variants_pages.

(** Octopus consults at most 128 items of the dataset. *)
Theorem C74_octopus_items fuel H512 H256 hash nonce size :
  asks any 128 (fun dataset : N -> outcome (list N) => octopus fuel H512 H256 hash nonce size dataset).
Proof.
  unfold octopus. apply asks_bind0. intros [res r]. apply asks_bind0; intros pre. unfold dagPart. cbv zeta.
  do 3 (apply asks_bind0; intro). apply asks_last. unfold accesses.
  apply (asks_for_n powAccesses 4 (fun j t o => _)). intros j t. do 3 (apply asks_bind0; intro).
  apply (asks_for_n mixNodes 1 (fun j t o => _)). intros j' t'. apply asks_last. apply asks_one.
Qed.
Print Assumptions C74_octopus_items.

(** ** Cache rows *)

(** A row of a cache: 16 words of 32 bits. *)
Definition row (r : list N) : Prop := length r = 16%nat /\ words 32 r.

Lemma rows_cache_ok rows (cache : N -> list N) : 1 <= rows -> (forall i, row (cache i)) -> cache_ok (tab rows cache).
Proof.
  intros R V. split.
  - intros E. apply (f_equal (@length _)) in E. rewrite tab_length in E. cbn [length] in E. lia.
  - unfold tab. apply Forall_map. apply Forall_forall. intros x _. apply V.
Qed.
Lemma asks_item_mix H rows index j : 1 <= rows ->
  asks row (1 + j) (fun cache : N -> list N => item_mix H (tab rows cache) index j).
Proof.
  intros R. induction j as [|j IH].
  - apply (asks_ext 1 (fun cache => hash_words H (xor_head index (cache (index mod rows))))).
    + intros o _. cbn [item_mix]. rewrite tab_length, N2Nat.id. rewrite nth_tab by (pose proof (N.mod_lt index rows); lia).
      rewrite N2Nat.id. reflexivity.
    + apply (asks_let 1 0 (fun cache => cache (index mod rows)) (fun r _ => hash_words H (xor_head index r))).
      * apply asks_one.
      * intros; apply asks_const.
  - set (p := fun mix => fnv (N.lxor index (N.of_nat j)) (nth (Nat.modulo j 16) mix 0) mod rows).
    apply (asks_ext (1 + S j) (fun cache =>
      (fun mix cache => map (fun '(a, b) => fnv a b) (combine mix (cache (p mix)))) (item_mix H (tab rows cache) index j) cache)).
    + intros o _. cbn [item_mix]. rewrite tab_length, N2Nat.id. unfold p.
      rewrite nth_tab by (pose proof (N.mod_lt (fnv (N.lxor index (N.of_nat j)) (nth (Nat.modulo j 16) (item_mix H (tab rows o) index j) 0)) rows); lia).
      rewrite N2Nat.id. reflexivity.
    + replace (1 + S j)%nat with (1 + j + 1)%nat by lia.
      apply (asks_let (1 + j) 1 (fun cache => item_mix H (tab rows cache) index j)
        (fun mix cache => map (fun '(a, b) => fnv a b) (combine mix (cache (p mix))))); [exact IH|]. intros mix.
      apply (asks_let 1 0 (fun cache => cache (p mix)) (fun r _ => map (fun '(a, b) => fnv a b) (combine mix r))).
      * apply asks_one.
      * intros; apply asks_const.
Qed.
(** One item of the dataset is found from one row of the cache and one more per parent. *)
Theorem C74_item_rows H d rows index : hash_ok 64 H -> 1 <= rows -> rows < 2 ^ 28 ->
  asks row (1 + N.to_nat (cf_dataset_parents d))
    (fun cache : N -> list N => generateDatasetItem H d (concat (tab rows cache)) index).
Proof.
  intros HH R1 R2. set (p := N.to_nat (cf_dataset_parents d)).
  apply (asks_ext _ (fun cache => (fun mix _ => Done (words_bytes (hash_words H mix))) (item_mix H (tab rows cache) index p) cache)).
  - intros o V. apply generateDatasetItem_spec; auto; [apply rows_cache_ok; auto|rewrite lenN_tab; exact R2].
  - replace (1 + p)%nat with (1 + p + 0)%nat by lia.
    apply (asks_let (1 + p) 0 (fun cache => item_mix H (tab rows cache) index p) (fun mix _ => Done (words_bytes (hash_words H mix))));
      [apply asks_item_mix; auto|]. intros; apply asks_const.
Qed.
Print Assumptions C74_item_rows.
Lemma asks_items H d rows size index : hash_ok 64 H -> 1 <= rows -> rows < 2 ^ 28 ->
  asks row (N.to_nat size * (1 + N.to_nat (cf_dataset_parents d)))
    (fun cache : N -> list N => generateDatasetItemUint H d (concat (tab rows cache)) index size).
Proof.
  intros HH R1 R2. unfold generateDatasetItemUint. cbv zeta.
  apply (asks_for_n size _ (fun j t o => _)). intros j t. apply asks_last. apply C74_item_rows; auto.
Qed.

(** So a whole evaluation by a light client is found from these numbers of rows of the cache (of 64 bytes), whatever
    its size: about 2 MB for the Ethash clients and Conflux, 8 MB for Ravencoin and Firo. *)
Theorem C74_light_ethash dir d H512 H256 hash nonce size rows : hash_ok 64 H512 -> 1 <= rows -> rows < 2 ^ 28 ->
  In d [cfg_ethereum dir; cfg_ethereum_classic dir] ->
  asks row (128 * 257) (fun cache : N -> list N =>
    hashimoto H512 H256 hash nonce size (NewLookupFunc512 H512 d (concat (tab rows cache)))).
Proof.
  intros HH R1 R2 I.
  apply (asks_compose 128 257 _ (fun i cache => NewLookupFunc512 H512 d (concat (tab rows cache)) i)).
  - apply C74_ethash_items.
  - intros i. unfold NewLookupFunc512. repeat destruct I as [<-|I]; try contradiction.
    + apply (asks_items H512 (cfg_ethereum dir) rows 1); auto.
    + apply (asks_items H512 (cfg_ethereum_classic dir) rows 1); auto.
Qed.
Print Assumptions C74_light_ethash.
Theorem C74_light_progpow dir H512 hash height nonce size l1 rows : hash_ok 64 H512 -> 1 <= rows -> rows < 2 ^ 28 ->
  asks row (64 * (4 * 513)) (fun cache : N -> list N =>
    kawpow hash height nonce size (NewLookupFunc2048 H512 (cfg_ravencoin dir) (concat (tab rows cache))) l1) /\
  asks row (64 * (4 * 513)) (fun cache : N -> list N =>
    firopow hash height nonce size (NewLookupFunc2048 H512 (cfg_firo dir) (concat (tab rows cache))) l1).
Proof.
  intros HH R1 R2. split.
  - apply (asks_compose 64 (4 * 513) (fun l => kawpow hash height nonce size l l1)
      (fun i cache => NewLookupFunc2048 H512 (cfg_ravencoin dir) (concat (tab rows cache)) i)).
    + apply (C74_variants_pages kawpow). left. reflexivity.
    + intros i. apply (asks_items H512 (cfg_ravencoin dir) rows 4); auto.
  - apply (asks_compose 64 (4 * 513) (fun l => firopow hash height nonce size l l1)
      (fun i cache => NewLookupFunc2048 H512 (cfg_firo dir) (concat (tab rows cache)) i)).
    + apply (C74_variants_pages firopow). right. left. reflexivity.
    + intros i. apply (asks_items H512 (cfg_firo dir) rows 4); auto.
Qed.
Print Assumptions C74_light_progpow.
Theorem C74_light_octopus dir fuel H512 H256 hash nonce size rows : hash_ok 64 H512 -> 1 <= rows -> rows < 2 ^ 28 ->
  asks row (128 * 257) (fun cache : N -> list N =>
    octopus fuel H512 H256 hash nonce size (NewLookupFunc512 H512 (cfg_conflux dir) (concat (tab rows cache)))).
Proof.
  intros HH R1 R2.
  apply (asks_compose 128 257 _ (fun i cache => NewLookupFunc512 H512 (cfg_conflux dir) (concat (tab rows cache)) i)).
  - apply C74_octopus_items.
  - intros i. apply (asks_items H512 (cfg_conflux dir) rows 1); auto.
Qed.
Print Assumptions C74_light_octopus.
(** A cache of 262139 rows (epoch 0 of Ethereum), of which these are read for one evaluation. *)
Example C74_instance (cache : N -> list N) : (forall i, row (cache i)) ->
  exists asked, (length asked <= 128 * 257)%nat /\ forall cache', (forall i, row (cache' i)) ->
    (forall i, In i asked -> cache' i = cache i) ->
    hashimoto keccak512 keccak256 (repeat 7 32) 42 1073739904 (NewLookupFunc512 keccak512 (cfg_ethereum []) (concat (tab 262139 cache'))) =
    hashimoto keccak512 keccak256 (repeat 7 32) 42 1073739904 (NewLookupFunc512 keccak512 (cfg_ethereum []) (concat (tab 262139 cache))).
Proof.
  intros V.
  refine (C74_determined row (128 * 257) _ (C74_light_ethash [] (cfg_ethereum []) keccak512 keccak256 (repeat 7 32) 42 1073739904 262139
    keccak512_ok _ _ (or_introl eq_refl)) cache V); reflexivity || discriminate.
Qed.
