(** The parameters of cache.generate for a configuration and an epoch, and the contents the
    specification asks for. *)
From Coq Require Import NArith ZArith List Bool.
From Verif Require Import Base DagModel DagSpec FileModel NameModel.
Import ListNotations.
Open Scope N_scope.

Section Job.
Variables keccak256 keccak512 : list N -> list N.
Variable pp : N -> bool.   (* big.Int.ProbablyPrime(1) *)
Variable fuel : nat.

(** cache.go:46, 104: cfg.SeedHash(epoch*cfg.EpochLength + 1) *)
Definition job_seed (d : config) (e : N) : outcome (list N) :=
  SeedHash keccak256 d (addw 64 (mulw 64 e (cf_epoch_length d)) 1).

(** cache.go:103-111, for ep := int(c.epoch) - CachesCount; ep >= 0; ep--: the removed files,
    for [n] iterations *)
Fixpoint old_names (d : config) (n : nat) : outcome (list name) :=
  match n with
  | O => Done []
  | S m =>
      seed <- job_seed d (N.of_nat m) ;;
      s8 <- slice seed 0 8 ;;
      rest <- old_names d m ;;
      Done (storageLocation KCache d s8 :: storageLocation KL1 d s8 :: rest)
  end.

(** The outcome of a generator run as contents; C13 and C15 show that it is Done. *)
Definition contents (o : outcome (list N)) : list N := match o with Done x => x | _ => [] end.

(** cache.go:43-113, the values computed from cfg and c.epoch *)
Definition job_of (d : config) (e : N) : outcome job :=
  size <- CacheSize pp fuel d e ;;
  seed <- job_seed d e ;;
  s8 <- slice seed 0 8 ;;
  old <- (match cf_storage_dir d with
          | [] => Done []
          | _ => old_names d (Z.to_nat (Z.of_N e - cf_caches_count d + 1))
          end) ;;
  Done (mkJob
    (match cf_storage_dir d with [] => false | _ => true end)
    (fun k => storageLocation k d s8)
    (fun k => match k with KCache => size | KL1 => cf_l1_cache_size d end)
    (fun k => match k with KCache => 4 * (size / 4) | KL1 => 4 * cf_l1_cache_num_items d end)
    (cf_l1_enabled d) (cf_caches_lock_mmap d)
    (fun k c len =>
       match k with
       | KCache => contents (generateCache keccak512 d (zeros len) seed)
       | KL1 => contents (generateL1Cache keccak512 d (zeros len) (le_words (Nat.div (length c) 4) c))
       end)
    old).

(** ** Specification of the contents *)

Definition epoch_seed (d : config) (e : N) : list N :=
  seed_chain keccak256 (N.to_nat ((e * cf_epoch_length d + 1) / cf_seed_epoch_length d)).
Definition spec_rows (d : config) (e size : N) : list (list N) :=
  cache_rows keccak512 (epoch_seed d e) (N.to_nat (size / 64)) (N.to_nat (cf_cache_rounds d)).
(** The cache is the rows one after the other; the L1 cache the first dataset items. *)
Definition spec_content (d : config) (e size : N) (k : kind) : list N :=
  match k with
  | KCache => concat (spec_rows d e size)
  | KL1 => words_bytes (concat (map (fun i =>
             dataset_item keccak512 (N.to_nat (cf_dataset_parents d))
               (map (le_words 16) (spec_rows d e size)) (N.of_nat i))
             (seq 0 (N.to_nat (cf_l1_cache_size d / 64)))))
  end.
(** File names: the first 8 bytes of the seed. *)
Definition spec_path (d : config) (e : N) (k : kind) : name :=
  storageLocation k d (firstn 8 (epoch_seed d e)).
End Job.
