(** Model of the file names: internal/dag/dag.go:47-59, with fmt.Sprintf's %s, %d, %x verbs and
    filepath.Join (path/filepath, Unix).  Strings are lists of bytes. *)
From Coq Require Import NArith ZArith List Bool.
From Verif Require Import Base DagModel FileModel.
Import ListNotations.
Open Scope N_scope.

(** %d of a non-negative number: decimal digits without leading zeros. *)
Fixpoint digits (fuel : nat) (n : N) (acc : list N) : list N :=
  match fuel with
  | O => acc
  | S fuel => let acc := (48 + n mod 10) :: acc in
              if n <? 10 then acc else digits fuel (n / 10) acc
  end.
Definition dec_N (n : N) : list N := digits (S (N.size_nat n)) n [].
(** %d of an int *)
Definition dec_Z (z : Z) : list N :=
  if (z <? 0)%Z then 45 :: dec_N (Z.to_N (- z)) else dec_N (Z.to_N z).

(** %x of a byte slice *)
Definition hexdigit (n : N) : N := if n <? 10 then 48 + n else 87 + n.
Definition hex_bytes (b : list N) : list N :=
  flat_map (fun x => [hexdigit (x / 16); hexdigit (x mod 16)]) b.

(** filepath.Clean: "" and "." components vanish, ".." removes the component before it;
    [stack] holds the components so far, last first. *)
Fixpoint split_slash (s : list N) (cur : list N) : list (list N) :=
  match s with
  | [] => [rev cur]
  | c :: s => if c =? 47 then rev cur :: split_slash s [] else split_slash s (c :: cur)
  end.
Definition clean_step (rooted : bool) (stack : list (list N)) (c : list N) : list (list N) :=
  if name_dec c [] then stack
  else if name_dec c [46] then stack
  else if name_dec c [46; 46] then
    match stack with
    | top :: rest => if name_dec top [46; 46] then c :: stack else rest
    | [] => if rooted then [] else [c]
    end
  else c :: stack.
Definition clean_stack (rooted : bool) (cs : list (list N)) : list (list N) :=
  fold_left (clean_step rooted) cs [].
(** components, each but the first preceded by a slash *)
Definition render (stack : list (list N)) : list N :=
  match rev stack with
  | [] => []
  | c :: cs => c ++ flat_map (fun x => 47 :: x) cs
  end.
Definition is_rooted (s : list N) : bool := match s with 47 :: _ => true | _ => false end.
Definition Clean (s : list N) : list N :=
  let r := is_rooted s in
  let body := render (clean_stack r (split_slash s [])) in
  if r then 47 :: body else if name_dec body [] then [46] else body.
(** filepath.Join of two elements *)
Definition Join (dir nm : list N) : list N :=
  match dir with
  | [] => if name_dec nm [] then [] else Clean nm
  | _ => Clean (dir ++ [47] ++ nm)
  end.

(** dag.go:47-59: cacheStorageLocation and l1StorageLocation *)
Definition prefix (k : kind) : list N :=
  match k with KCache => [99; 97; 99; 104; 101; 45] (* "cache-" *) | KL1 => [108; 49; 45] (* "l1-" *) end.
Definition basename (k : kind) (nm : list N) (rev : Z) (seed : list N) : list N :=
  prefix k ++ nm ++ [45; 82] (* "-R" *) ++ dec_Z rev ++ [45] ++ hex_bytes seed.
Definition storageLocation (k : kind) (d : config) (seed : list N) : name :=
  Join (cf_storage_dir d) (basename k (cf_name d) (cf_revision d) seed).
