(** Model of the cache registry: the part of DAG.GetCache that runs under the mutex
    (dag.go:123-160).  Concurrency around it is in OnceModel.v.

    A cache object (cache.go:26-32) is represented by its identity (its address), its epoch
    and the time of its last use; its contents are in OnceModel.v and FileModel.v.  An object
    is reachable from one place only (one map entry or [future]), so the registry holds the
    records themselves. *)
From Coq Require Import NArith ZArith List Bool.
From Verif Require Import Base DagModel.
Import ListNotations.
Open Scope N_scope.

(** cache.go:26-32, the fields epoch and used; [co_id] is the object's identity. *)
Record cobj := mkObj { co_id : N; co_epoch : N; co_used : Z }.

(** dag.go:31-36, the fields caches (a Go map) and future; [rg_next] is the identity the next
    allocated object gets.  Simplification: a nil map (dag.go:127-129) is the empty list. *)
Record registry := mkReg { rg_caches : list (N * cobj); rg_future : option cobj; rg_next : N }.

(** dag.go:38-45, New *)
Definition empty_registry : registry := mkReg [] None 0.

(** Go map operations. *)
Fixpoint map_get (k : N) (m : list (N * cobj)) : option cobj :=
  match m with
  | [] => None
  | (k', c) :: m' => if k' =? k then Some c else map_get k m'
  end.
Definition map_delete (k : N) (m : list (N * cobj)) : list (N * cobj) :=
  filter (fun '(k', _) => negb (k' =? k)) m.
Definition map_set (k : N) (c : cobj) (m : list (N * cobj)) : list (N * cobj) :=
  (k, c) :: map_delete k m.

(** dag.go:134-139: the loop over the map, whose iteration order Go leaves open; [entries] is
    the order of this run. *)
Definition oldest (entries : list (N * cobj)) : option cobj :=
  fold_left (fun evict '(_, cache) =>
    match evict with
    | None => Some cache
    | Some ev => if (co_used cache <? co_used ev)%Z then Some cache else evict
    end) entries None.

(** dag.go:126-158, from Lock to Unlock.  [order] gives the iteration order of the map, [now]
    is time.Now().  Returns the new registry, the object for [epoch] and the object whose
    generation is started in the background, if any. *)
Definition get_locked (d : config) (order : list (N * cobj) -> list (N * cobj)) (now : Z)
    (epoch : N) (r : registry) : outcome (registry * cobj * option cobj) :=
  match map_get epoch (rg_caches r) with
  | Some c =>
      let c := mkObj (co_id c) (co_epoch c) now in
      Done (mkReg (map_set epoch c (rg_caches r)) (rg_future r) (rg_next r), c, None)
  | None =>
      caches <- (if (cf_caches_count d <=? Z.of_N (lenN (rg_caches r)))%Z
                 then match oldest (order (rg_caches r)) with
                      | None => Panic (* evict is nil *)
                      | Some evict => Done (map_delete (co_epoch evict) (rg_caches r))
                      end
                 else Done (rg_caches r)) ;;
      let fresh := (mkObj (rg_next r) epoch 0, rg_future r, rg_next r + 1) in
      let '(c, future, next) :=
        match rg_future r with
        | Some f => if co_epoch f =? epoch then (f, None, rg_next r) else fresh
        | None => fresh
        end in
      let nextEpoch := addw 64 epoch 1 in
      let start := (Some (mkObj next nextEpoch 0), Some (mkObj next nextEpoch 0), next + 1) in
      let '(future, spawned, next) :=
        match future with
        | Some f => if co_epoch f <=? epoch then start else (future, None, next)
        | None => start
        end in
      let c := mkObj (co_id c) (co_epoch c) now in
      Done (mkReg (map_set epoch c caches) future next, c, spawned)
  end.

(** A request: the epoch, the time it runs and the map iteration order. *)
Record request := mkReqst {
  rq_epoch : N; rq_now : Z; rq_order : list (N * cobj) -> list (N * cobj) }.

(** A sequence of requests; also collects the objects handed out, in order. *)
Fixpoint run_requests (d : config) (l : list request) (r : registry)
  : outcome (registry * list cobj) :=
  match l with
  | [] => Done (r, [])
  | q :: l' =>
      '(r1, c, _) <- get_locked d (rq_order q) (rq_now q) (rq_epoch q) r ;;
      '(r2, cs) <- run_requests d l' r1 ;;
      Done (r2, c :: cs)
  end.
