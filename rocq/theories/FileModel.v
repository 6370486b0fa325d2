(** Small-step model of cache files: internal/dag/cache.go:43-113 (the function run by
    cache.generate) and internal/dag/mmap.go:42-164, executed by any number of processes or
    goroutines over one storage directory.

    One step is one file-system call, or one access to mapped memory.  Every call may fail.
    A process may be killed between any two steps.  Simplifications:
    - the crash is that of a process, not of the machine: the code never calls fsync, so
      after a power failure nothing is guaranteed about unflushed pages;
    - MkdirAll and directories are not represented beyond their possible failure;
    - rename is atomic and replaces its target (POSIX);
    - a shared writable mapping and the file are one byte sequence;
    - the generators are total functions of the buffer length and of the cache (their
      definitions are in DagModel.v; see [job_of] in FileJob.v). *)
From Coq Require Import NArith List Bool.
From Verif Require Import Base.
Import ListNotations.
Open Scope N_scope.

Definition name := list N.
Definition name_dec : forall a b : name, {a = b} + {a <> b} := list_eq_dec N.eq_dec.

(** mmap.go:31-33, dumpMagic, in the little-endian layout of the mapping *)
Definition dumpMagic : list N := [3135097598 (* 0xbaddcafe *); 4276215469 (* 0xfee1dead *)].
Definition magic_bytes : list N := concat (map (le_bytes 4) dumpMagic).

(** Directory entries lead to inodes; an inode outlives its entries while it is mapped. *)
Record fs := mkFs { fs_dir : name -> option N; fs_data : N -> list N; fs_next : N }.
Definition set_dir (f : fs) (n : name) (v : option N) : fs :=
  mkFs (fun m => if name_dec m n then v else fs_dir f m) (fs_data f) (fs_next f).
Definition set_data (f : fs) (i : N) (x : list N) : fs :=
  mkFs (fs_dir f) (fun j => if j =? i then x else fs_data f j) (fs_next f).
(** os.Create: O_CREATE|O_TRUNC *)
Definition create (f : fs) (n : name) : fs * N :=
  match fs_dir f n with
  | Some i => (set_data f i [], i)
  | None => (set_data (mkFs (fun m => if name_dec m n then Some (fs_next f) else fs_dir f m)
                        (fs_data f) (fs_next f + 1)) (fs_next f) [], fs_next f)
  end.
(** File.Truncate *)
Definition resize (x : list N) (len : N) : list N :=
  firstn (N.to_nat len) x ++ repeat 0 (N.to_nat len - length x)%nat.

Inductive kind := KCache | KL1.

(** What one run of generate depends on: the configuration and the epoch. *)
Record job := mkJob {
  jb_disk : bool;                       (* StorageDir <> "" *)
  jb_path : kind -> name;               (* cacheStorageLocation, l1StorageLocation *)
  jb_size : kind -> N;                  (* file payload: CacheSize(epoch), L1CacheSize *)
  jb_mem : kind -> N;                   (* in-memory buffer: CacheSize(epoch), 4*L1CacheNumItems *)
  jb_l1 : bool;                         (* L1Enabled *)
  jb_lock : bool;                       (* CachesLockMmap *)
  jb_gen : kind -> list N -> N -> list N; (* generateCache / generateL1Cache: cache, length *)
  jb_old : list name                    (* cache.go:102-110, files of old epochs *)
}.

(** A dataFile: a mapping of an inode after the magic, or memory. *)
Inductive data := Mapped (i : N) | Memory (b : list N).
Definition content (f : fs) (d : data) : list N :=
  match d with Mapped i => skipn 8 (fs_data f i) | Memory b => b end.

(** Program counters.  [first] tells the attempt of cache.go:72/77 from the one at the end of
    memoryMapAndGenerate (mmap.go:163). *)
Inductive pc :=
| Open (k : kind) (first : bool)                (* mmap.go:45, os.OpenFile *)
| Map (k : kind) (first : bool) (i : N)         (* mmap.go:50, memoryMapFile *)
| Check (k : kind) (first : bool) (i : N)       (* mmap.go:56-70, magic and lock *)
| Mkdir (k : kind)                              (* mmap.go:122 *)
| Create (k : kind)                             (* mmap.go:127-131 *)
| Trunc (k : kind) (tmp : name) (i : N)         (* mmap.go:133 *)
| MapW (k : kind) (tmp : name) (i : N)          (* mmap.go:140 *)
| Fill (k : kind) (tmp : name) (i : N)          (* mmap.go:147-149 *)
| Unmap (k : kind) (tmp : name) (i : N)         (* mmap.go:151 *)
| Close (k : kind) (tmp : name) (i : N)         (* mmap.go:155 *)
| Rename (k : kind) (tmp : name) (i : N)        (* mmap.go:159 *)
| RemoveTmp (k : kind) (tmp : name)             (* mmap.go:135, 143 *)
| InMem (k : kind)                              (* cache.go:50-55, 89-90, 98-99 *)
| Clean (l : list name)                         (* cache.go:104-112 *)
| Finished
| Panicked.

(** [pr_cache], [pr_l1]: c.cache and c.l1, None before they are set or after an error. *)
Record proc := mkProc { pr_pc : pc; pr_cache : option data; pr_l1 : option data }.
Definition go (p : proc) (c : pc) : proc := mkProc c (pr_cache p) (pr_l1 p).
Definition slot (p : proc) (k : kind) : option data :=
  match k with KCache => pr_cache p | KL1 => pr_l1 p end.
Definition fill_slot (p : proc) (k : kind) (d : option data) : proc :=
  match k with
  | KCache => mkProc (pr_pc p) d (pr_l1 p)
  | KL1 => mkProc (pr_pc p) (pr_cache p) d
  end.
Definition missing (d : option data) : bool := match d with Some _ => false | None => true end.

(** cache.go:49, 71-72 *)
Definition start (j : job) : proc :=
  mkProc (if jb_disk j then Open KCache true else InMem KCache) None None.

(** cache.go:83-95: after the two attempts to load *)
Definition decide (j : job) (p : proc) : proc :=
  go p (if missing (pr_cache p) then Mkdir KCache
        else if jb_l1 j && missing (pr_l1 p) then Mkdir KL1 else Finished).
(** cache.go:95, 104 (and 52-57): after the cache, or the L1 cache, has been generated *)
Definition after (j : job) (p : proc) (k : kind) : proc :=
  go p (match k with
        | KCache => if jb_l1 j && missing (pr_l1 p)
                    then if jb_disk j then Mkdir KL1 else InMem KL1
                    else Clean (jb_old j)
        | KL1 => Clean (jb_old j)
        end).
(** memoryMap returned: a mapping or an error *)
Definition loaded (j : job) (p : proc) (k : kind) (first : bool) (d : option data) : proc :=
  if first then
    match k with
    | KCache => let p := fill_slot p KCache d in if jb_l1 j then go p (Open KL1 true) else decide j p
    | KL1 => decide j (fill_slot p KL1 d)
    end
  else match d with
       | Some _ => after j (fill_slot p k d) k
       | None => go (fill_slot p k None) (InMem k)
       end.

(** mmap.go:94-100, 56-62: the view as words, compared with dumpMagic one by one *)
Definition check_magic (x : list N) : outcome bool :=
  let view := map (fun k => le_value (firstn 4 (skipn (4 * k)%nat x))) (seq 0 (Nat.div (length x) 4)) in
  a <- idx view 0 ;;
  if negb (a =? nth 0 dumpMagic 0) then Done false
  else b <- idx view 1 ;; Done (b =? nth 1 dumpMagic 0).

(** mmap.go:126: path + "." + strconv.Itoa(rand.Int()); [r] is the decimal numeral *)
Definition temp_name (path : name) (r : list N) : name := path ++ [46] ++ r.
Definition is_numeral (r : list N) : Prop := r <> [] /\ Forall (fun c => 48 <= c <= 57) r.

(** The cache the L1 generator reads; a nil slice if it is not there. *)
Definition cache_bytes (f : fs) (p : proc) (k : kind) : list N :=
  match k, pr_cache p with KL1, Some d => content f d | _, _ => [] end.

(** mmap.go:94-100, 147-149: the view of the mapping has its whole words; the magic goes into the first two
    and the generator gets the rest.  Simplification: the mapping is as long as the file is now. *)
Definition fill_file (j : job) (k : kind) (cache x : list N) : list N :=
  let len := 4 * (lenN x / 4) in
  magic_bytes ++ jb_gen j k cache (len - 8) ++ skipn (N.to_nat len) x.

Inductive pstep (j : job) : fs -> proc -> fs -> proc -> Prop :=
| p_open f p k b i : pr_pc p = Open k b -> fs_dir f (jb_path j k) = Some i ->
    pstep j f p f (go p (Map k b i))
| p_open_fail f p k b : pr_pc p = Open k b -> pstep j f p f (loaded j p k b None)
| p_map f p k b i : pr_pc p = Map k b i -> fs_data f i <> [] -> pstep j f p f (go p (Check k b i))
| p_map_fail f p k b i : pr_pc p = Map k b i -> pstep j f p f (loaded j p k b None)
| p_check f p k b i : pr_pc p = Check k b i -> check_magic (fs_data f i) = Done true ->
    pstep j f p f (loaded j p k b (Some (Mapped i)))
| p_check_bad f p k b i : pr_pc p = Check k b i -> check_magic (fs_data f i) = Done false ->
    pstep j f p f (loaded j p k b None)
| p_check_panic f p k b i : pr_pc p = Check k b i -> check_magic (fs_data f i) = Panic ->
    pstep j f p f (go p Panicked)
| p_check_lock f p k b i : pr_pc p = Check k b i -> jb_lock j = true ->
    check_magic (fs_data f i) = Done true -> pstep j f p f (loaded j p k b None)
| p_mkdir f p k : pr_pc p = Mkdir k -> pstep j f p f (go p (Create k))
| p_mkdir_fail f p k : pr_pc p = Mkdir k -> pstep j f p f (go (fill_slot p k None) (InMem k))
| p_create f p k r f' i : pr_pc p = Create k -> is_numeral r ->
    create f (temp_name (jb_path j k) r) = (f', i) ->
    pstep j f p f' (go p (Trunc k (temp_name (jb_path j k) r) i))
| p_create_fail f p k : pr_pc p = Create k -> pstep j f p f (go (fill_slot p k None) (InMem k))
| p_trunc f p k tmp i : pr_pc p = Trunc k tmp i ->
    pstep j f p (set_data f i (resize (fs_data f i) (8 + jb_size j k))) (go p (MapW k tmp i))
| p_trunc_fail f p k tmp i : pr_pc p = Trunc k tmp i -> pstep j f p f (go p (RemoveTmp k tmp))
| p_mapw f p k tmp i : pr_pc p = MapW k tmp i -> pstep j f p f (go p (Fill k tmp i))
| p_mapw_fail f p k tmp i : pr_pc p = MapW k tmp i -> pstep j f p f (go p (RemoveTmp k tmp))
| p_fill_some f p k tmp i x : pr_pc p = Fill k tmp i -> length x = length (fs_data f i) ->
    pstep j f p (set_data f i x) p        (* anything may be in the file meanwhile *)
| p_fill f p k tmp i : pr_pc p = Fill k tmp i -> 8 <= lenN (fs_data f i) ->
    pstep j f p (set_data f i (fill_file j k (cache_bytes f p k) (fs_data f i))) (go p (Unmap k tmp i))
| p_fill_panic f p k tmp i : pr_pc p = Fill k tmp i -> lenN (fs_data f i) < 8 ->
    pstep j f p f (go p Panicked)         (* buffer[len(dumpMagic):] of a shorter view *)
| p_unmap f p k tmp i : pr_pc p = Unmap k tmp i -> pstep j f p f (go p (Close k tmp i))
| p_unmap_fail f p k tmp i : pr_pc p = Unmap k tmp i ->
    pstep j f p f (go (fill_slot p k None) (InMem k))
| p_close f p k tmp i : pr_pc p = Close k tmp i -> pstep j f p f (go p (Rename k tmp i))
| p_close_fail f p k tmp i : pr_pc p = Close k tmp i ->
    pstep j f p f (go (fill_slot p k None) (InMem k))
| p_rename f p k tmp i m : pr_pc p = Rename k tmp i -> fs_dir f tmp = Some m ->
    pstep j f p (set_dir (set_dir f tmp None) (jb_path j k) (Some m)) (go p (Open k false))
| p_rename_fail f p k tmp i : pr_pc p = Rename k tmp i ->
    pstep j f p f (go (fill_slot p k None) (InMem k))
| p_removetmp f p k tmp : pr_pc p = RemoveTmp k tmp ->
    pstep j f p (set_dir f tmp None) (go (fill_slot p k None) (InMem k))
| p_removetmp_fail f p k tmp : pr_pc p = RemoveTmp k tmp ->
    pstep j f p f (go (fill_slot p k None) (InMem k))
| p_inmem f p k : pr_pc p = InMem k ->
    pstep j f p f
      (after j (fill_slot p k (Some (Memory (jb_gen j k (cache_bytes f p k) (jb_mem j k))))) k)
| p_clean f p n l : pr_pc p = Clean (n :: l) -> pstep j f p (set_dir f n None) (go p (Clean l))
| p_clean_fail f p n l : pr_pc p = Clean (n :: l) -> pstep j f p f (go p (Clean l))
| p_clean_end f p : pr_pc p = Clean [] -> pstep j f p f (go p Finished).

(** Several processes; None stands for a killed one. *)
Record state := mkState { st_fs : fs; st_procs : list (job * option proc) }.
Definition initial (f : fs) (js : list job) : state :=
  mkState f (map (fun j => (j, Some (start j))) js).

Inductive fstep : state -> state -> Prop :=
| f_step f f' ps t j p p' :
    nth_error ps t = Some (j, Some p) -> pstep j f p f' p' ->
    fstep (mkState f ps) (mkState f' (set_nth ps t (j, Some p')))
| f_kill f ps t j p :
    nth_error ps t = Some (j, Some p) ->
    fstep (mkState f ps) (mkState f (set_nth ps t (j, None))).

(** The temporary file a process is using. *)
Definition temp_of (p : proc) : option name :=
  match pr_pc p with
  | Trunc _ tmp _ | MapW _ tmp _ | Fill _ tmp _ | Unmap _ tmp _ | Close _ tmp _
  | Rename _ tmp _ | RemoveTmp _ tmp => Some tmp
  | _ => None
  end.
(** No two live processes use the same temporary file. *)
Definition distinct_temps (s : state) : Prop :=
  forall t u j j' p p' n, nth_error (st_procs s) t = Some (j, Some p) ->
    nth_error (st_procs s) u = Some (j', Some p') ->
    temp_of p = Some n -> temp_of p' = Some n -> t = u.

(** Executions in which the random suffixes of simultaneous writers differ... *)
Inductive run (s0 : state) : state -> Prop :=
| run_refl : run s0 s0
| run_step s s' : run s0 s -> fstep s s' -> distinct_temps s' -> run s0 s'.
(** ...and all executions. *)
Inductive run_any (s0 : state) : state -> Prop :=
| any_refl : run_any s0 s0
| any_step s s' : run_any s0 s -> fstep s s' -> run_any s0 s'.
