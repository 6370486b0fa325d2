(** Model of internal/common/filesystem.go:10-19, DefaultDir, and of the default client
    configurations that use it (ethash/client.go:29, 58, kawpow/client.go:29,
    firopow/client.go:29, octopus/client.go:29).

    The environment is an argument: the value of $HOME (os.Getenv gives "" if it is not set),
    the home directory user.Current reports (None: it fails), and whether runtime.GOOS is
    "windows".  filepath.Join on Windows is an argument, on Unix it is [Join] of NameModel.v. *)
From Coq Require Import NArith List Bool.
From Verif Require Import Base NameModel.
Import ListNotations.
Open Scope N_scope.

Record env := mkEnv { en_home : list N; en_user : option (list N); en_windows : bool }.

(** lines 11-14 *)
Definition home_dir (v : env) : list N :=
  match en_user v with Some h => h | None => en_home v end.

(** "AppData", "PowCache" *)
Definition app_data : list N := [65; 112; 112; 68; 97; 116; 97].
Definition pow_cache : list N := [80; 111; 119; 67; 97; 99; 104; 101].
(** ".powcache" *)
Definition dot_powcache : list N := [46; 112; 111; 119; 99; 97; 99; 104; 101].

Definition DefaultDir (win_join : list (list N) -> list N) (v : env) (nm : list N) : list N :=
  if en_windows v then win_join [home_dir v; app_data; pow_cache]
  else Join (home_dir v) nm.
