(** The public calls as programs on memory (C71). *)
From Coq Require Import NArith ZArith List Bool.
From Verif Require Import Base DagModel EthashModel ProgpowModel OctopusModel HeavyModel AutoModel EagleTables EagleModel
  CuckooModel EquiModel BeamModel MemModel MemSpec MemDag MemProgpow MemOctopus MemHeavy MemAuto MemEagle MemCuckoo MemTree MemBeam MemEqui.
Import ListNotations.
Open Scope N_scope.

(** The package variable ravencoinKawpow of kawpow.go:15-31, an array that was there before the calls. *)
Definition kawpow_table : sl := mkSl (0, 0) 0 15 15.
(** The package variables bitMatrix, coefficients and injectionConstants of eaglesong_constants.go:9-126. *)
Definition bits_table : sl := mkSl (0, 1) 0 256 256.
Definition coeffs_table : sl := mkSl (0, 2) 0 48 48.
Definition inject_table : sl := mkSl (0, 3) 0 688 688.
(** The package variables indexMask, collisionMask and mixMask of beamhashiii.go:19-23, one big integer each. *)
Definition index_mask : sl := mkSl (0, 4) 0 1 1.
Definition collision_mask : sl := mkSl (0, 5) 0 1 1.
Definition mix_mask : sl := mkSl (0, 6) 0 1 1.
(** They hold what the package initialisation put there. *)
Definition initialised (m : memory) : Prop :=
  contents m kawpow_table = ravencoinKawpow /\ contents m bits_table = bitMatrix /\
  contents m coeffs_table = EagleTables.coefficients /\ contents m inject_table = injectionConstants /\
  contents m index_mask = [indexMask] /\ contents m collision_mask = [collisionMask] /\ contents m mix_mask = [mixMask].

(** A call, its slices being slices of the caller or of the client.  For the algorithms with a dataset it is the
    part of Compute after the cache of the epoch is known (what comes before is the subject of C18 and C69):
    ethash/client.go:82-96, kawpow/client.go:56-70, firopow/client.go:56-70, octopus/client.go:54-68.  The others
    are the whole of Compute: heavyhash/client.go:19-27, autolykos2/client.go:27-33, eaglesong/client.go:27-29, or of
    Verify: cuckoo/client.go:59-81, equihash/client.go:41-43, beamhashiii/client.go:27-35.  The personalisation of
    the last two is a slice of the client. *)
Inductive request : Type :=
| AskEthash (d : config) (cache hash : sl) (nonce datasetSize : N)
| AskKawpow (d : config) (cache l1 hash : sl) (height nonce datasetSize : N)
| AskFiropow (d : config) (cache l1 hash : sl) (height nonce datasetSize : N)
| AskOctopus (d : config) (cache hash : sl) (nonce datasetSize : N)
| AskHeavyhash (hash : sl) (timestamp : Z) (nonce : N)
| AskAutolykos2 (k nBase : N) (msg : sl) (height nonce : N)
| AskEaglesong (rounds capacity rate delim : N) (input : sl)
| AskCuckoo (c : CuckooModel.client) (header sols : sl)
| AskEquihash (n k : N) (personal header soln : sl) (twist : bool)
| AskBeam (personal header soln : sl).

Definition slices (r : request) : list sl :=
  match r with
  | AskEthash _ cache hash _ _ => [cache; hash]
  | AskKawpow _ cache l1 hash _ _ _ => [cache; l1; hash; kawpow_table]
  | AskFiropow _ cache l1 hash _ _ _ => [cache; l1; hash]
  | AskOctopus _ cache hash _ _ => [cache; hash]
  | AskHeavyhash hash _ _ => [hash]
  | AskAutolykos2 _ _ msg _ _ => [msg]
  | AskEaglesong _ _ _ _ input => [input; bits_table; coeffs_table; inject_table]
  | AskCuckoo _ header sols => [header; sols]
  | AskEquihash _ _ personal header soln _ => [personal; header; soln]
  | AskBeam personal header soln => [personal; header; soln; index_mask; collision_mask; mix_mask]
  end.
(** The clients the models on lists speak of: with k above 61 autolykos2 reads past the end of a slice, but
    possibly not past its capacity. *)
Definition in_range (r : request) : Prop :=
  match r with AskAutolykos2 k _ _ _ _ => k <= 61 | _ => True end.

(** What the code takes from elsewhere. *)
Record outside : Type := mkOutside {
  keccak512 : list N -> list N;
  keccak256 : list N -> list N;
  blake2b256 : list N -> list N;
  cshake : list N -> list N -> list N;
  blake2b : N -> list N -> list N -> list N;           (* of a size and with a personalisation *)
  submul : float64 -> float64 -> float64 -> float64;   (* x - y * z, fused or not *)
  room : N -> N;                                       (* the capacity append gives a new array *)
  fuel : nat                                           (* bounds the loops with no bound of their own *)
}.
Definition right_sizes (o : outside) : Prop :=
  (forall x, lenN (keccak512 o x) = 64) /\ (forall x, lenN (keccak256 o x) = 32) /\ (forall x, lenN (blake2b256 o x) = 32) /\
  (forall x y, lenN (cshake o x y) = 32) /\ (forall s p d, 0 < s <= 64 -> lenN (blake2b o s p d) = s) /\ (forall k, k <= room o k).

Section Calls.
Variable o : outside.
Notation keccak512 := (keccak512 o).
Notation keccak256 := (keccak256 o).
Notation blake2b256 := (blake2b256 o).
Notation cshake := (cshake o).
Notation blake2b := (blake2b o).
Notation submul := (submul o).
Notation room := (room o).
Notation fuel := (fuel o).

(** The check of the length of the hash, an error if it is not 32. *)
Definition checked (hash : sl) (p : prog (list sl * list N)) : prog answer :=
  if negb (s_len hash =? 32) then Ret None else x <~ p ;; Ret (Some x).
Definition two (x : sl * sl) : list sl * list N := ([fst x; snd x], []).
Definition one (x : sl) : list sl * list N := ([x], []).

(** An answer without slices: whether the solution is good, and which error if there is one. *)
Definition error_number (e : option cuckoo_err) : N :=
  match e with
  | None => 0
  | Some ErrSolsLength => 1 | Some ErrUnsupported => 2
  | Some ErrPowTooBig => 3 | Some ErrPowTooSmall => 4 | Some ErrPowNotMatching => 5
  | Some ErrPowBranch => 6 | Some ErrPowDeadEnd => 7 | Some ErrPowShortCycle => 8
  end.
Definition numbers {A} (v : bool * option cuckoo_err) : option (list A * list N) :=
  Some ([], [N.b2n (fst v); error_number (snd v)]).
Definition number {A} (v : option bool) : option (list A * list N) :=
  match v with Some b => Some ([], [N.b2n b]) | None => None end.

Definition program (r : request) : prog answer :=
  match r with
  | AskEthash d cache hash nonce datasetSize =>
      checked hash (x <~ p_ethash keccak512 keccak256 room d cache hash nonce datasetSize ;; Ret (two x))
  | AskKawpow d cache l1 hash height nonce datasetSize =>
      checked hash (st <~ newHasher ;;
        x <~ p_kawpow kawpow_table hash height nonce datasetSize
          (fun index => p_generateDatasetItemUint keccak512 d cache index 4 st) l1 ;; Ret (two x))
  | AskFiropow d cache l1 hash height nonce datasetSize =>
      checked hash (st <~ newHasher ;;
        x <~ p_firopow hash height nonce datasetSize
          (fun index => p_generateDatasetItemUint keccak512 d cache index 4 st) l1 ;; Ret (two x))
  | AskOctopus d cache hash nonce datasetSize =>
      checked hash (st <~ newHasher ;;
        x <~ p_octopus fuel keccak512 keccak256 room hash nonce datasetSize
          (fun index => p_generateDatasetItemUint keccak512 d cache index 1 st) ;; Ret (one x))
  | AskHeavyhash hash timestamp nonce =>
      checked hash (x <~ p_heavyHash submul cshake fuel hash timestamp nonce ;; Ret (one x))
  | AskAutolykos2 k nBase msg height nonce =>
      checked msg (x <~ p_compute blake2b256 room k nBase msg nonce height ;; Ret (one x))
  | AskEaglesong rounds capacity rate delim input =>
      x <~ p_eaglesong bits_table coeffs_table inject_table rounds capacity rate delim input ;; Ret (Some (one x))
  | AskCuckoo c header sols => x <~ p_Verify blake2b256 fuel c header sols ;; Ret (numbers x)
  | AskEquihash n k personal header soln twist => x <~ p_verify blake2b room fuel n k personal header soln twist ;; Ret (number x)
  | AskBeam personal header soln =>
      x <~ p_BeamVerify blake2b room index_mask collision_mask mix_mask personal header soln ;; Ret (number x)
  end.

(** What the models on lists say. *)
Definition when_32 (hash : list N) (v : outcome (list (list N) * list N)) : outcome value :=
  if negb (lenN hash =? 32) then Done None else x <- v ;; Done (Some x).
Definition two_lists (x : list N * list N) : list (list N) * list N := ([fst x; snd x], []).
Definition one_list (x : list N) : list (list N) * list N := ([x], []).
Definition expected (m : memory) (r : request) : outcome value :=
  match r with
  | AskEthash d cache hash nonce datasetSize =>
      let hash := contents m hash in
      when_32 hash (x <- hashimoto keccak512 keccak256 hash nonce datasetSize (NewLookupFunc512 keccak512 d (contents m cache)) ;;
        Done (two_lists x))
  | AskKawpow d cache l1 hash height nonce datasetSize =>
      let hash := contents m hash in
      when_32 hash (x <- kawpow hash height nonce datasetSize (NewLookupFunc2048 keccak512 d (contents m cache)) (contents m l1) ;;
        Done (two_lists x))
  | AskFiropow d cache l1 hash height nonce datasetSize =>
      let hash := contents m hash in
      when_32 hash (x <- firopow hash height nonce datasetSize (NewLookupFunc2048 keccak512 d (contents m cache)) (contents m l1) ;;
        Done (two_lists x))
  | AskOctopus d cache hash nonce datasetSize =>
      let hash := contents m hash in
      when_32 hash (x <- octopus fuel keccak512 keccak256 hash nonce datasetSize (NewLookupFunc512 keccak512 d (contents m cache)) ;;
        Done (one_list x))
  | AskHeavyhash hash timestamp nonce =>
      when_32 (contents m hash) (x <- heavyHash submul cshake fuel (contents m hash) timestamp nonce ;; Done (one_list x))
  | AskAutolykos2 k nBase msg height nonce =>
      when_32 (contents m msg) (x <- compute blake2b256 k nBase (contents m msg) nonce height ;; Done (one_list x))
  | AskEaglesong rounds capacity rate delim input =>
      x <- eaglesong rounds capacity rate delim (contents m input) ;; Done (Some (one_list x))
  | AskCuckoo c header sols => x <- CuckooModel.Verify blake2b256 fuel c (contents m header) (contents m sols) ;; Done (numbers x)
  | AskEquihash n k personal header soln twist =>
      x <- verify blake2b (fun k => zeros (room k - k)) fuel n k (contents m personal) (contents m header) (contents m soln) twist ;;
      Done (number x)
  | AskBeam personal header soln =>
      x <- BeamVerify blake2b (mkBeam 150 5 (contents m personal)) (contents m header) (contents m soln) ;; Done (number x)
  end.
End Calls.
