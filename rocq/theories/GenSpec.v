(** What cmd/gen-lookup is to write, and which command lines say so. *)
From Coq Require Import NArith ZArith List Bool String.
From Verif Require Import Base DagModel GenModel.
Import ListNotations.
Open Scope N_scope.

(** "1, 2, 3," *)
Fixpoint commas (l : list N) : list N :=
  match l with
  | [] => []
  | [v] => decimal v ++ [44]
  | v :: l => decimal v ++ [44; 32] ++ commas l
  end.
(** A Go literal with five numbers on each line; numbers that do not fill a line are left out. *)
Definition literal (t : list N) : list N :=
  txt "[]uint64{" ++ [10] ++
  flat_map (fun i => [9] ++ commas (firstn 5 (skipn (5 * i) t)) ++ [10]) (seq 0 (List.length t / 5)) ++
  txt "}".
Definition go_file (package cacheSizes datasetSizes : list N) : list N :=
  txt "package " ++ package ++ [10; 10] ++
  txt "var cacheSizes = " ++ literal cacheSizes ++ [10; 10] ++
  txt "var datasetSizes = " ++ literal datasetSizes ++ [10].

(** One flag with its value, and the four ways to write it. *)
Inductive option_ := Package (p : list N) | Epochs (z : Z) | MixBytes (n : N)
  | CacheInit (n : N) | CacheGrowth (n : N) | DatasetInit (n : N) | DatasetGrowth (n : N).
Definition option_name (o : option_) : list N :=
  txt match o with
      | Package _ => "package" | Epochs _ => "epochs" | MixBytes _ => "mixBytes"
      | CacheInit _ => "cacheInit" | CacheGrowth _ => "cacheGrowth"
      | DatasetInit _ => "datasetInit" | DatasetGrowth _ => "datasetGrowth"
      end.
Definition apply_option (f : flags) (o : option_) : flags :=
  let 'mkFlags p e m ci cg di dg := f in
  match o with
  | Package p => mkFlags p e m ci cg di dg
  | Epochs e => mkFlags p e m ci cg di dg
  | MixBytes m => mkFlags p e m ci cg di dg
  | CacheInit ci => mkFlags p e m ci cg di dg
  | CacheGrowth cg => mkFlags p e m ci cg di dg
  | DatasetInit di => mkFlags p e m ci cg di dg
  | DatasetGrowth dg => mkFlags p e m ci cg di dg
  end.
Inductive style := OneDash | TwoDashes | OneDashEquals | TwoDashesEquals.
Definition write_option (s : style) (nm value : list N) : list (list N) :=
  match s with
  | OneDash => [txt "-" ++ nm; value]
  | TwoDashes => [txt "--" ++ nm; value]
  | OneDashEquals => [txt "-" ++ nm ++ txt "=" ++ value]
  | TwoDashesEquals => [txt "--" ++ nm ++ txt "=" ++ value]
  end.

(** The comments in line 1 of ethash/client.go, kawpow/client.go, firopow/client.go and octopus/client.go. *)
Definition generate_ethash : list (list N) := map txt
  ["-package"; "ethash"; "-mixBytes"; "128"; "-cacheInit"; "16777216"; "-cacheGrowth"; "131072";
   "-datasetInit"; "1073741824"; "-datasetGrowth"; "8388608"]%string.
Definition generate_kawpow : list (list N) := map txt
  ["-package"; "kawpow"; "-mixBytes"; "128"; "-cacheInit"; "16777216"; "-cacheGrowth"; "131072";
   "-datasetInit"; "1073741824"; "-datasetGrowth"; "8388608"]%string.
Definition generate_firopow : list (list N) := map txt
  ["-package"; "firopow"; "-mixBytes"; "128"; "-cacheInit"; "16777216"; "-cacheGrowth"; "131072";
   "-datasetInit"; "1610612736"; "-datasetGrowth"; "8388608"]%string.
Definition generate_octopus : list (list N) := map txt
  ["-package"; "octopus"; "-mixBytes"; "256"; "-cacheInit"; "16777216"; "-cacheGrowth"; "65536";
   "-datasetInit"; "4294967296"; "-datasetGrowth"; "16777216"]%string.
