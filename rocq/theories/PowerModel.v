(** Cache files and power failures: internal/dag/mmap.go:118-164 writes a temporary file through
    a mapping, closes it and renames it; nothing there calls fsync or msync with MS_SYNC.

    FileModel.v is the view of the processes.  Here there is, beside it, what is on the disk:
    the kernel writes single pages of file data back at any time, and the directory (with the
    allocation of files) as a whole, as a journal does.  When the power fails the processes are
    gone and the new view of everybody is what is on the disk.
    Simplifications: the size of a file reaches the disk with its pages; a page is written
    back as a whole. *)
From Coq Require Import NArith List Bool.
From Verif Require Import Base FileModel.
Import ListNotations.
Open Scope N_scope.

Record machine := mkM { mc_now : state; mc_disk : fs }.

(** The file on disk after page [p] of [new] was written back; [old] was on disk. *)
Definition overlay (page p : nat) (old new : list N) : list N :=
  let old := resize old (N.of_nat (length new)) in
  firstn (page * p) old ++ firstn page (skipn (page * p) new) ++ skipn (page * p + page) old.

(** [sync]: files are put under a cache name only when their data is on the disk, the effect of
    an fsync before the rename of mmap.go:159.  The code is [sync = false]. *)
Definition put_synced (named : name -> Prop) (before after disk : fs) : Prop :=
  forall n i, named n -> fs_dir after n = Some i -> fs_dir before n <> Some i ->
    fs_data disk i = fs_data after i.

Inductive mstep (page : nat) (sync : bool) (named : name -> Prop) (jobs : job -> Prop) : machine -> machine -> Prop :=
| m_step s s' k :                       (* a process makes a step or is killed *)
    fstep s s' -> distinct_temps s' ->
    (sync = true -> put_synced named (st_fs s) (st_fs s') k) ->
    mstep page sync named jobs (mkM s k) (mkM s' k)
| m_data s k i p :                      (* a page is written back *)
    mstep page sync named jobs (mkM s k) (mkM s (set_data k i (overlay page p (fs_data k i) (fs_data (st_fs s) i))))
| m_dir s k :                           (* the directory is written back *)
    mstep page sync named jobs (mkM s k) (mkM s (mkFs (fs_dir (st_fs s)) (fs_data k) (fs_next (st_fs s))))
| m_power s k js :                      (* power failure; later processes start again *)
    Forall jobs js ->
    mstep page sync named jobs (mkM s k) (mkM (initial k js) k).

(** From a disk [f] in use since the start. *)
Inductive mrun (page : nat) (sync : bool) (named : name -> Prop) (jobs : job -> Prop) (f : fs) : machine -> Prop :=
| m_init js : Forall jobs js -> mrun page sync named jobs f (mkM (initial f js) f)
| m_next m m' : mrun page sync named jobs f m -> mstep page sync named jobs m m' -> mrun page sync named jobs f m'.
