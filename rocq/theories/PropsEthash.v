(** C22: ethash evaluation equals hashimoto, and stays inside the dataset. *)
From Coq Require Import NArith ZArith List Lia Bool ZifyBool ZifyNat ZifyN.
From Verif Require Import Base BaseFacts Hashes HashesFacts DagModel DagSpec DagContent PropsDagContent
  EthashModel EthashSpec EthashProofs.
Import ListNotations.
Open Scope N_scope.

(** For every header hash, nonce, size and dataset.  [lookup] only has to answer for the items
    of the whole pages of the dataset: no other index is ever asked for. *)
Theorem C22_hashimoto H512 H256 hash nonce size lookup item :
  hash_ok 64 H512 -> length hash = 32%nat -> 128 <= size -> size <= 2 ^ 38 ->
  (forall i, i < 2 * (size / 128) -> lookup i = Done (item i) /\ length (item i) = 16%nat /\ words 32 (item i)) ->
  hashimoto H512 H256 hash nonce size lookup = Done (hashimoto_spec H512 H256 hash nonce (size / 128) item).
Proof. intros. apply hashimoto_refines; auto. Qed.
Print Assumptions C22_hashimoto.

(** The result does not depend on anything else: two lookups that agree on the dataset, and two
    sizes with the same number of whole pages, give the same result. *)
Theorem C22_depends_on_dataset_only H512 H256 hash nonce size size' lookup lookup' item :
  hash_ok 64 H512 -> length hash = 32%nat ->
  128 <= size -> size <= 2 ^ 38 -> 128 <= size' -> size' <= 2 ^ 38 -> size / 128 = size' / 128 ->
  (forall i, i < 2 * (size / 128) -> lookup i = Done (item i) /\ length (item i) = 16%nat /\ words 32 (item i)) ->
  (forall i, i < 2 * (size / 128) -> lookup' i = lookup i) ->
  hashimoto H512 H256 hash nonce size lookup = hashimoto H512 H256 hash nonce size' lookup'.
Proof.
  intros HH LH S1 S2 S3 S4 SE A B.
  rewrite (C22_hashimoto H512 H256 hash nonce size lookup item), (C22_hashimoto H512 H256 hash nonce size' lookup' item); auto.
  - rewrite SE. reflexivity.
  - intros i Hi. rewrite B by lia. apply A. lia.
Qed.
Print Assumptions C22_depends_on_dataset_only.

(** A dataset of three pages. *)
Definition toy_item (i : N) : list N := tab 16 (fun j => (i * 1640531527 + j * 40503 + 7) mod 2 ^ 32).
Definition toy_lookup (i : N) : outcome (list N) := if i <? 6 then Done (toy_item i) else Panic.
Example C22_instance :
  hashimoto toy_hash toy_hash (repeat 17 32) 123456789 400 toy_lookup =
    Done (hashimoto_spec toy_hash toy_hash (repeat 17 32) 123456789 3 toy_item) /\
  hashimoto toy_hash toy_hash (repeat 17 32) 123456789 400 toy_lookup <>
    hashimoto toy_hash toy_hash (repeat 17 32) 123456790 400 toy_lookup.
Proof.
  split.
  - apply (C22_hashimoto toy_hash toy_hash (repeat 17 32) 123456789 400 toy_lookup toy_item);
      [exact toy_hash_ok|reflexivity|lia|lia|].
    intros i Hi. change (2 * (400 / 128)) with 6 in Hi. unfold toy_lookup.
    destruct (N.ltb_spec i 6); [|lia]. split; [reflexivity|]. split; [reflexivity|].
    apply words_tab. intros. apply N.mod_lt. lia.
  - vm_compute. discriminate.
Qed.
