(** Model of the program cmd/gen-lookup (main.go:75-129): command line, template, output file.  The tables and their
    formatting (main.go:16-73) are in DagModel.v.

    Strings are lists of bytes.  The package flag of the standard library is modelled as far as the program
    uses it: seven flags, none of them boolean, flag.ExitOnError.  strconv.ParseInt(s, 0, 64) and
    strconv.ParseUint(s, 0, 64) are arguments.  Simplification: memory is not limited, so make succeeds for every
    non-negative length. *)
From Coq Require Import NArith ZArith List Bool String Ascii.
From Verif Require Import Base DagModel FileModel NameModel.
Import ListNotations.
Open Scope N_scope.

(** A string constant of the source as its bytes. *)
Definition txt (s : string) : list N := map N_of_ascii (list_ascii_of_string s).

(** main.go:88-101 *)
Record flags := mkFlags {
  fl_package : list N; fl_epochs : Z; fl_mix : N;
  fl_cache_init : N; fl_cache_growth : N; fl_dataset_init : N; fl_dataset_growth : N }.
Definition default_flags : flags := mkFlags [] 2048 128 0 0 0 0.

Section Program.
Variable parse_int : list N -> option Z.
Variable parse_uint : list N -> option N.

(** FlagSet.Lookup and Value.Set: no such flag, a bad value, or the flags with this one set. *)
Inductive setting := NoFlag | BadValue | Set_ (f : flags).
Definition uint_value (v : list N) (k : N -> flags) : setting :=
  match parse_uint v with Some n => Set_ (k n) | None => BadValue end.
Definition set_flag (f : flags) (nm v : list N) : setting :=
  let 'mkFlags p e m ci cg di dg := f in
  if name_dec nm (txt "package") then Set_ (mkFlags v e m ci cg di dg)
  else if name_dec nm (txt "epochs") then
    match parse_int v with Some z => Set_ (mkFlags p z m ci cg di dg) | None => BadValue end
  else if name_dec nm (txt "mixBytes") then uint_value v (fun n => mkFlags p e n ci cg di dg)
  else if name_dec nm (txt "cacheInit") then uint_value v (fun n => mkFlags p e m n cg di dg)
  else if name_dec nm (txt "cacheGrowth") then uint_value v (fun n => mkFlags p e m ci n di dg)
  else if name_dec nm (txt "datasetInit") then uint_value v (fun n => mkFlags p e m ci cg n dg)
  else if name_dec nm (txt "datasetGrowth") then uint_value v (fun n => mkFlags p e m ci cg di n)
  else NoFlag.

(** The first part of FlagSet.parseOne: what kind of argument it is, and the name and value in it. *)
Inductive argument := Plain | Malformed | Flag (nm : list N) (v : option (list N)).
Fixpoint cut_equals (s : list N) (acc : list N) : list N * option (list N) :=
  match s with
  | [] => (rev acc, None)
  | c :: s => if c =? 61 then (rev acc, Some s) else cut_equals s (c :: acc)
  end.
Definition flag_text (s : list N) : argument :=
  match s with
  | [] => Malformed
  | c :: s' => if (c =? 45) || (c =? 61) then Malformed
               else let '(nm, v) := cut_equals s' [c] in Flag nm v
  end.
Definition argument_of (s : list N) : argument :=
  match s with
  | c :: c' :: rest =>
      if negb (c =? 45) then Plain
      else if c' =? 45 then match rest with [] => Plain (* "--" *) | _ => flag_text rest end
      else flag_text (c' :: rest)
  | _ => Plain
  end.

(** FlagSet.Parse; an error prints the usage and leaves with status 2, -help and -h with status 0. *)
Inductive parsed := Parsed (f : flags) | Usage (status : N).
Definition unknown (nm : list N) : parsed :=
  if name_dec nm (txt "help") then Usage 0 else if name_dec nm (txt "h") then Usage 0 else Usage 2.
Fixpoint parse_args (args : list (list N)) (f : flags) : parsed :=
  match args with
  | [] => Parsed f
  | a :: rest =>
      match argument_of a with
      | Plain => Parsed f
      | Malformed => Usage 2
      | Flag nm (Some v) =>
          match set_flag f nm v with NoFlag => unknown nm | BadValue => Usage 2 | Set_ f' => parse_args rest f' end
      | Flag nm None =>
          match rest with
          | [] => match set_flag f nm [] with NoFlag => unknown nm | _ => Usage 2 end
          | v :: rest' =>
              match set_flag f nm v with NoFlag => unknown nm | BadValue => Usage 2 | Set_ f' => parse_args rest' f' end
          end
      end
  end.

(** main.go:91-98 and 118-127: text/template puts the strings in as they are. *)
Definition lookup_file (package cacheLookup datasetLookup : list N) : list N :=
  txt "package " ++ package ++ [10; 10] ++
  txt "var cacheSizes = " ++ cacheLookup ++ [10; 10] ++
  txt "var datasetSizes = " ++ datasetLookup ++ [10].

(** What the program does: it hands a file to ioutil.WriteFile and returns, leaves with a status, panics; or
    the fuel did not suffice. *)
Inductive run := Writes (path content : list N) | Exits (status : N) | Crashes | Searches.

(** main.go:75-129.  [cwd] is what os.Getwd gives. *)
Definition gen_main (pp : N -> bool) (fuel : nat) (cwd : option (list N)) (args : list (list N)) : run :=
  match parse_args args default_flags with
  | Usage status => Exits status
  | Parsed f =>
      match fl_package f with
      | [] => Exits 1                                            (* log.Fatalf *)
      | _ =>
          if (fl_epochs f <? 0)%Z then Crashes                   (* make of a negative length *)
          else
            match (cacheTable <- genCacheLookupTable pp fuel (fl_cache_init f) (fl_cache_growth f) (Z.to_N (fl_epochs f)) ;;
                   datasetTable <- genDatasetLookupTable pp fuel (fl_mix f) (fl_dataset_init f) (fl_dataset_growth f) (Z.to_N (fl_epochs f)) ;;
                   c <- formatLookupTable cacheTable 5 ;;
                   d <- formatLookupTable datasetTable 5 ;;
                   Done (lookup_file (fl_package f) c d)) with
            | Done content =>
                match cwd with
                | None => Exits 1
                | Some dir => Writes (Join dir (fl_package f ++ txt "_lookup.go")) content
                end
            | Panic => Crashes
            | OutOfFuel => Searches
            end
      end
  end.
End Program.
