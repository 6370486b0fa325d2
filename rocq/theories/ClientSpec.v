(** Specification of the DAG clients: the dataset of an epoch, whatever was asked before. *)
From Coq Require Import NArith ZArith List Bool.
From Verif Require Import Base DagSpec.
Import ListNotations.
Open Scope N_scope.

Section Spec.
Variables H256 H512 : list N -> list N.

(** The items of the dataset of an epoch: [position] is the place of its seed in the Keccak chain, [cs] the
    size of its verification cache in bytes, made in three rounds. *)
Definition dataset (parents : nat) (position cs : N) (i : N) : list N :=
  dataset_item H512 parents (map (le_words 16) (cache_rows H512 (seed_chain H256 (N.to_nat position)) (N.to_nat (cs / 64)) 3)) i.
(** Pages of four items. *)
Definition page (item : N -> list N) (i : N) : list N := item (4 * i) ++ item (4 * i + 1) ++ item (4 * i + 2) ++ item (4 * i + 3).
(** The first 256 items. *)
Definition first_items (item : N -> list N) : list N := concat (map (fun i => item (N.of_nat i)) (seq 0 256)).
End Spec.
