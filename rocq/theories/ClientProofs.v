(** Proofs about ClientModel.v. *)
From Coq Require Import NArith ZArith Arith List Bool Lia ZifyBool ZifyN ZifyNat Permutation Znumtheory.
From Verif Require Import Base BaseFacts DagModel DagSpec DagSize Chunks DagContent FileModel FileJob FileJobProofs
  RegModel RegProofs PropsDagContent ClientModel ClientSpec.
Import ListNotations.
Open Scope N_scope.
Ltac Zify.zify_post_hook ::= Z.div_mod_to_equations.

Section Proofs.
Variables keccak256 keccak512 : list N -> list N.
Variable pp : N -> bool.
Variable fuel : nat.
Hypothesis H256 : hash_ok 32 keccak256.
Hypothesis H512 : hash_ok 64 keccak512.
Variable d : config.
Hypothesis SEL : 0 < cf_seed_epoch_length d.
Hypothesis CC : (1 <= cf_caches_count d)%Z.
Hypothesis L1a : cf_l1_cache_size d = 4 * cf_l1_cache_num_items d.
Hypothesis L1b : cf_l1_cache_size d mod 64 = 0.
Hypothesis L1c : cf_l1_cache_size d < 2 ^ 38.

Notation eok := (epoch_ok pp fuel d).
Notation gen := (generate keccak256 keccak512 pp fuel d).

(** The rows of words of the cache of epoch [e]. *)
Definition the_cache (e size : N) : list (list N) := map (le_words 16) (spec_rows keccak256 keccak512 d e size).
Definition the_item (e size : N) : N -> list N := dataset_item keccak512 (N.to_nat (cf_dataset_parents d)) (the_cache e size).
Definition the_l1 (e size : N) : list N :=
  if cf_l1_enabled d then concat (map (fun i => the_item e size (N.of_nat i)) (seq 0 (N.to_nat (cf_l1_cache_num_items d / 16)))) else [].

Lemma the_cache_ok e size : eok e size -> cache_ok (the_cache e size) /\ lenN (the_cache e size) = size / 64.
Proof.
  intros (E1 & E2 & E3 & E4 & E5). unfold the_cache, spec_rows.
  destruct (cache_rows_ok keccak512 (epoch_seed keccak256 d e) (N.to_nat (size / 64)) (N.to_nat (cf_cache_rounds d)) H512) as (BL & LEN).
  assert (FB := cache_rows_bytes keccak512 (epoch_seed keccak256 d e) (N.to_nat (size / 64)) (N.to_nat (cf_cache_rounds d)) H512).
  set (R := cache_rows _ _ _ _) in *. split.
  - split; [destruct R; [cbn in LEN; lia|discriminate]|].
    apply Forall_map, Forall_forall. intros r Hr. split; [apply le_words_length|].
    apply le_words_words. apply (proj1 (Forall_forall _ _) FB _ Hr).
  - unfold lenN. rewrite map_length, LEN. lia.
Qed.

Lemma the_item_ok e size i : length (the_item e size i) = 16%nat /\ words 32 (the_item e size i).
Proof. split; [apply dataset_item_length|apply dataset_item_words; exact H512]. Qed.

Lemma generate_spec e size : eok e size -> gen e = Done (concat (the_cache e size), the_l1 e size).
Proof.
  intros OK. pose proof (the_cache_ok e size OK) as (CO & CL). destruct OK as (E1 & E2 & E3 & E4 & E5).
  unfold generate. rewrite E2. cbn [bind].
  change (SeedHash keccak256 d (addw 64 (mulw 64 e (cf_epoch_length d)) 1)) with (job_seed keccak256 d e).
  rewrite job_seed_spec by (auto; lia). cbn [bind].
  set (rows := size / 64) in *. assert (ER : size = 64 * rows) by (unfold rows; lia).
  rewrite (generateCache_spec keccak512 d _ (epoch_seed keccak256 d e) rows); auto; try lia.
  2:{ unfold lenN, zeros. rewrite repeat_length. lia. }
  cbn [bind].
  destruct (cache_rows_ok keccak512 (epoch_seed keccak256 d e) (N.to_nat rows) (N.to_nat (cf_cache_rounds d)) H512) as (BL & LEN).
  assert (FB := cache_rows_bytes keccak512 (epoch_seed keccak256 d e) (N.to_nat rows) (N.to_nat (cf_cache_rounds d)) H512).
  replace (N.to_nat (size / 4)) with (16 * N.to_nat rows)%nat by lia.
  rewrite le_words_concat by auto.
  change (map (le_words 16) (cache_rows keccak512 (epoch_seed keccak256 d e) (N.to_nat rows) (N.to_nat (cf_cache_rounds d))))
    with (the_cache e size).
  unfold the_l1. destruct (cf_l1_enabled d); [|reflexivity].
  set (num := cf_l1_cache_num_items d) in *.
  rewrite (generateL1Cache_spec keccak512 d (the_cache e size) _ (num / 16)); auto.
  - cbn [bind]. f_equal. f_equal. apply le_words_words_bytes.
    + apply Forall_concat, Forall_map, Forall_forall. intros. apply dataset_item_words; auto.
    + rewrite (concat_blocks_length 16).
      * rewrite map_length, seq_length. lia.
      * apply Forall_map, Forall_forall. intros. apply dataset_item_length.
  - rewrite CL. lia.
  - unfold lenN, zeros. rewrite repeat_length. lia.
  - lia.
Qed.

(** One call under the lock and the generations it leads to. *)
Lemma GetCache_spec order now e size size' r :
  (forall m, Permutation m (order m)) -> wf (cf_caches_count d) r -> eok e size -> eok (e + 1) size' -> e < 2 ^ 64 - 1 ->
  exists r', GetCache keccak256 keccak512 pp fuel d order now e r = Done (r', (concat (the_cache e size), the_l1 e size)) /\
    wf (cf_caches_count d) r'.
Proof.
  intros PO W OK OK' B. destruct (get_locked_spec d order now e r CC PO B W) as (r' & c & sp & E & W' & CE & _ & _ & M).
  unfold GetCache. rewrite E. cbn [bind]. rewrite CE, (generate_spec e size OK). cbn [bind].
  exists r'. split; [|exact W'].
  destruct sp as [f|]; [|reflexivity].
  assert (FE : co_epoch f = e + 1).
  { destruct (map_get e (rg_caches r)); [destruct M as (_ & M & _); discriminate|]. destruct M as (_ & _ & _ & M & _). exact M. }
  rewrite FE, (generate_spec (e + 1) size' OK'). reflexivity.
Qed.

Lemma computeWith_spec {R} (eval : N -> list N -> list N -> outcome R) order now r hash height e size size' ds x :
  (forall m, Permutation m (order m)) -> wf (cf_caches_count d) r -> lenN hash = 32 ->
  CalcEpoch d height = Done e -> e < 2 ^ 64 - 1 -> eok e size -> eok (e + 1) size' -> DatasetSize pp fuel d e = Done ds ->
  eval ds (concat (the_cache e size)) (the_l1 e size) = Done x ->
  exists r', computeWith keccak256 keccak512 pp fuel eval d order now r hash height = Done (r', Some x) /\ wf (cf_caches_count d) r'.
Proof.
  intros PO W LH CE B OK OK' DS EV. unfold computeWith. rewrite LH. change (negb (32 =? 32)) with false. cbv iota.
  rewrite CE. cbn [bind]. rewrite DS. cbn [bind].
  destruct (GetCache_spec order now e size size' r PO W OK OK' B) as (r' & E & W'). rewrite E. cbn [bind].
  rewrite EV. cbn [bind]. exists r'. auto.
Qed.

(** What the lookups give on the cache of the epoch. *)
Lemma lookup512 e size i : eok e size -> i < 2 ^ 32 ->
  NewLookupFunc512 keccak512 d (concat (the_cache e size)) i = Done (the_item e size i).
Proof.
  intros OK Hi. destruct (the_cache_ok e size OK) as (CO & CL). destruct OK as (E1 & E2 & E3 & E4 & E5).
  destruct (C14_lookup_funcs keccak512 d (the_cache e size) i H512 CO) as (A & _); [rewrite CL; lia|]. apply A. exact Hi.
Qed.
Lemma lookup2048 e size i : eok e size -> i < 2 ^ 30 ->
  NewLookupFunc2048 keccak512 d (concat (the_cache e size)) i = Done (page (the_item e size) i).
Proof.
  intros OK Hi. destruct (the_cache_ok e size OK) as (CO & CL). destruct OK as (E1 & E2 & E3 & E4 & E5).
  destruct (C14_lookup_funcs keccak512 d (the_cache e size) i H512 CO) as (_ & _ & A); [rewrite CL; lia|]. apply A. exact Hi.
Qed.
Lemma page_ok e size i : length (page (the_item e size) i) = 64%nat /\ words 32 (page (the_item e size) i).
Proof.
  unfold page. split.
  - rewrite !app_length. rewrite !(proj1 (the_item_ok e size _)). reflexivity.
  - repeat (apply Forall_app; split); apply the_item_ok.
Qed.
Lemma the_l1_ok e size : cf_l1_enabled d = true ->
  length (the_l1 e size) = N.to_nat (cf_l1_cache_num_items d) /\ words 32 (the_l1 e size).
Proof.
  intros EN. unfold the_l1. rewrite EN. split.
  - rewrite (concat_blocks_length 16).
    + rewrite map_length, seq_length. lia.
    + apply Forall_map, Forall_forall. intros. apply the_item_ok.
  - apply Forall_concat, Forall_map, Forall_forall. intros. apply the_item_ok.
Qed.
End Proofs.

(** What a call that returned has done, for any configuration and hashes. *)
Section Inversion.
Variables keccak256 keccak512 : list N -> list N.
Variable pp : N -> bool.
Variable fuel : nat.
Variable d : config.
Hypothesis CC : (1 <= cf_caches_count d)%Z.

Lemma computeWith_inv {R} (eval : N -> list N -> list N -> outcome R) order now r hash height r' a :
  (forall m, Permutation m (order m)) -> wf (cf_caches_count d) r -> height / cf_epoch_length d < 2 ^ 64 - 1 ->
  computeWith keccak256 keccak512 pp fuel eval d order now r hash height = Done (r', a) ->
  (lenN hash <> 32 /\ r' = r /\ a = None) \/
  (lenN hash = 32 /\
   let e := height / cf_epoch_length d in
   exists ds cache l1 x c sp, cf_epoch_length d <> 0 /\ DatasetSize pp fuel d e = Done ds /\
     generate keccak256 keccak512 pp fuel d e = Done (cache, l1) /\ eval ds cache l1 = Done x /\ a = Some x /\
     get_locked d order now e r = Done (r', c, sp) /\ wf (cf_caches_count d) r').
Proof.
  intros PO W B E. unfold computeWith in E. destruct (N.eqb_spec (lenN hash) 32) as [L|L].
  2:{ left. injection E as <- <-. auto. }
  right. split; [exact L|]. cbn [negb] in E.
  unfold CalcEpoch, divc in E. destruct (N.eqb_spec (cf_epoch_length d) 0) as [Z|NZ]; [discriminate|]. cbn [bind] in E.
  set (e := height / cf_epoch_length d) in *. intros e0. subst e0.
  destruct (DatasetSize pp fuel d e) as [ds| |] eqn:DS; try discriminate. cbn [bind] in E.
  destruct (get_locked_spec d order now e r CC PO B W) as (r1 & c & sp & G & W1 & CE & _).
  unfold GetCache in E. rewrite G in E. cbn [bind] in E. rewrite CE in E.
  destruct (generate keccak256 keccak512 pp fuel d e) as [(cache & l1)| |] eqn:GE; try discriminate. cbn [bind] in E.
  destruct (match sp with Some f => _ | None => _ end); try discriminate. cbn [bind] in E.
  destruct (eval ds cache l1) as [x| |] eqn:EV; try discriminate. cbn [bind] in E. injection E as <- <-.
  exists ds, cache, l1, x, c, sp. auto 10.
Qed.
End Inversion.
