(** Clients of one coin in several processes on one storage directory: the goroutines and the
    registry of each client (OnceModel.v), its garbage collector (GcModel.v) and the file
    operations of each generation (FileModel.v) step in any interleaving; files may fail,
    programs may start and be killed at any time.

    A program stands for one client (one coin in one operating system process).  The function
    that sync.Once guards (cache.go:45-112) is a run of FileModel.v: it starts when the
    goroutine enters the function and the goroutine leaves the function when that run has
    finished.  A run that panics, or whose sizes cannot be computed, leaves its program there
    for good.  Simplification: clients of the same operating system process may be killed one
    by one, which only adds executions. *)
From Coq Require Import NArith ZArith List Bool.
From Verif Require Import Base DagModel DagSpec RegModel OnceModel GcModel FileModel FileJob.
Import ListNotations.
Open Scope N_scope.

Section World.
Variables keccak256 keccak512 : list N -> list N.
Variable pp : N -> bool.
Variable fuel : nat.
Variable d : config.
Variable top : N.   (* requests are for epochs below this *)

(** In OnceModel.v the content of an object is the epoch it was generated for; the bytes are
    those of the run. *)
Definition epoch_of (e : N) : N := e.

Record world := mkW {
  w_files : state;                    (* the directory and all runs of generate so far *)
  w_owner : list nat;                 (* the program of each run *)
  w_progs : list (option (gcsys N));  (* programs; None: killed *)
  w_run : nat -> N -> option nat      (* program and object: the run that generates it *)
}.

Definition init_world (f : fs) : world := mkW (mkState f []) [] [] (fun _ _ => None).

Definition content_of (g : gcsys N) (id : N) : OnceModel.content N := go_content (sh_obj (sy_shared (gc_sys g)) id).

(** The program after a step of its goroutine [t]. *)
Definition stepped (g : gcsys N) (t : nat) (th : thread) (sh : shared N) (pc : OnceModel.pc) (new : list thread) : gcsys N :=
  mkGc (mkSys sh (set_nth (sy_threads (gc_sys g)) t (mkT (th_req th) pc) ++ new)) (gc_use g) (gc_unmapped g).

Inductive wstep : world -> world -> Prop :=
| w_start w :                                   (* a program starts *)
    wstep w (mkW (w_files w) (w_owner w) (w_progs w ++ [Some gc_init]) (w_run w))
| w_code w i g g' :                             (* any step but entering and leaving generate *)
    nth_error (w_progs w) i = Some (Some g) ->
    gcstep d epoch_of 0 g g' ->
    (forall id, content_of g' id = content_of g id) ->
    (forall t th e, nth_error (sy_threads (gc_sys g')) t = Some th -> th_req th = Some e -> e < top) ->
    wstep w (mkW (w_files w) (w_owner w) (set_nth (w_progs w) i (Some g')) (w_run w))
| w_enter w i g t th c j sh pc new :            (* a goroutine enters generate *)
    nth_error (w_progs w) i = Some (Some g) ->
    nth_error (sy_threads (gc_sys g)) t = Some th -> th_pc th = Gen c ->
    job_of keccak256 keccak512 pp fuel d (co_epoch c) = Done j ->
    lstep d epoch_of t (sy_shared (gc_sys g)) (Gen c) sh pc new ->
    wstep w (mkW (mkState (st_fs (w_files w)) (st_procs (w_files w) ++ [(j, Some (start j))]))
                 (w_owner w ++ [i])
                 (set_nth (w_progs w) i (Some (stepped g t th sh pc new)))
                 (fun i' id => if (Nat.eqb i' i && (id =? co_id c))%bool
                               then Some (length (st_procs (w_files w))) else w_run w i' id))
| w_leave w i g t th c r j p sh pc new :        (* generate returns *)
    nth_error (w_progs w) i = Some (Some g) ->
    nth_error (sy_threads (gc_sys g)) t = Some th -> th_pc th = Gen2 c ->
    w_run w i (co_id c) = Some r ->
    nth_error (st_procs (w_files w)) r = Some (j, Some p) -> pr_pc p = Finished ->
    lstep d epoch_of t (sy_shared (gc_sys g)) (Gen2 c) sh pc new ->
    wstep w (mkW (w_files w) (w_owner w) (set_nth (w_progs w) i (Some (stepped g t th sh pc new))) (w_run w))
| w_io w r j p f' p' i g :                      (* a file operation of a run, or its failure *)
    nth_error (st_procs (w_files w)) r = Some (j, Some p) ->
    nth_error (w_owner w) r = Some i -> nth_error (w_progs w) i = Some (Some g) ->
    pstep j (st_fs (w_files w)) p f' p' ->
    distinct_temps (mkState f' (set_nth (st_procs (w_files w)) r (j, Some p'))) ->
    wstep w (mkW (mkState f' (set_nth (st_procs (w_files w)) r (j, Some p'))) (w_owner w) (w_progs w) (w_run w))
| w_kill w i g :                                (* a program is killed... *)
    nth_error (w_progs w) i = Some (Some g) ->
    wstep w (mkW (w_files w) (w_owner w) (set_nth (w_progs w) i None) (w_run w))
| w_reap w r j p i :                            (* ...and with it its runs *)
    nth_error (st_procs (w_files w)) r = Some (j, Some p) ->
    nth_error (w_owner w) r = Some i -> nth_error (w_progs w) i = Some None ->
    wstep w (mkW (mkState (st_fs (w_files w)) (set_nth (st_procs (w_files w)) r (j, None)))
                 (w_owner w) (w_progs w) (w_run w)).

Inductive history (f : fs) : world -> Prop :=
| hy_init : history f (init_world f)
| hy_step w w' : history f w -> wstep w w' -> history f w'.

(** The memory goroutines of program [i] see behind object [id]: cache and L1 cache as words
    (cache.go:34-40), if it was generated. *)
Definition memory (w : world) (i : nat) (id : N) : option (list N * list N) :=
  match w_run w i id with
  | None => None
  | Some r =>
      match nth_error (st_procs (w_files w)) r with
      | Some (_, Some p) =>
          match pr_cache p with
          | None => None
          | Some x =>
              let words b := le_words (Nat.div (length b) 4) b in
              let cache := words (FileModel.content (st_fs (w_files w)) x) in
              match pr_l1 p with
              | None => Some (cache, [])
              | Some y => Some (cache, words (FileModel.content (st_fs (w_files w)) y))
              end
          end
      | _ => None
      end
  end.
End World.
