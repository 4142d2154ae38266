(** The text printed by karabo-data-validate (validation.py 14-26, 201-224). *)
From Verif Require Import Base PyStr M_Files M_FilesMap M_Machinery M_Reader M_Repr M_InfoText M_Validation M_Validate.
Set Implicit Arguments.
Local Open Scope string_scope.
Local Open Scope list_scope.

(** str of the shape of a one-dimensional array. *)
Definition shape1_str (n : nat) : string := ("(" ++ nat_repr n ++ ",)")%string.

(** validation.py 45-46 with the arguments of each call of record: the message and the other entries of the dict. *)
Definition kind_entries (p : problem_kind) : string * list (string * string) :=
  match p with
  | PZeroesBefore => ("Zeroes in trainId index before last train ID", [("dataset", "INDEX/trainId")])                  (* 56-58 *)
  | PNotIncreasing pos a b =>                                                                                          (* 67-72 *)
      (("Train IDs are not strictly increasing, e.g. at " ++ nat_repr pos ++ " (" ++ int_repr a ++ " >= " ++ int_repr b ++ ")")%string,
       [("dataset", "INDEX/trainId")])
  | POutside ds m n =>                                                                                                 (* 82-89 *)
      (("Index referring to data (" ++ int_repr m ++ ") outside dataset (" ++ int_repr n ++ ")")%string, [("dataset", ds)])
  | PDifferentNumber ix nf nc =>                                                                                       (* 103-108 *)
      ("Index first & count have different number of entries", [("dataset", ix); ("first_shape", shape1_str nf); ("count_shape", shape1_str nc)])
  | PWrongNumber ix n nt =>                                                                                            (* 110-115 *)
      ("Index has wrong number of entries", [("dataset", ix); ("index_shape", shape1_str n); ("trainids_shape", shape1_str nt)])
  | PNotAtZero ix => ("Index doesn't start at 0", [("dataset", ix)])                                                   (* 121-122 *)
  | PGaps ix n pos f c g =>                                                                                            (* 126-131 *)
      (("Gaps (" ++ nat_repr n ++ ") in index, e.g. at " ++ nat_repr pos ++ " (" ++ int_repr f ++ " + " ++ int_repr c ++ " < " ++ int_repr g ++ ")")%string, [("dataset", ix)])
  | POverlaps ix n pos f c g =>                                                                                        (* 133-138 *)
      (("Overlaps (" ++ nat_repr n ++ ") in index, e.g. at " ++ nat_repr pos ++ " (" ++ int_repr f ++ " + " ++ int_repr c ++ " > " ++ int_repr g ++ ")")%string, [("dataset", ix)])
  end.

Section Text.
(** str of the exception raised when opening a file, and the path of the cached map of the run directory. *)
Variable err_str : exn -> string.
Variable run_dir cache_file : string.

(** validation.py 45-46, 171-177, 196-200 *)
Definition problem_entries (p : run_problem) : string * list (string * string) :=
  match p with
  | RNotOpened path e => ("Could not open file", [("file", path); ("error", err_str e)])
  | RNoUsableFiles => ("No usable files found", [("directory", run_dir)])
  | RFileProblem q => let '(msg, l) := kind_entries (pr_kind q) in (msg, ("file", pr_file q) :: l)
  | RCacheWrong path => ("Incorrect data map cache entry", [("cache_file", cache_file); ("data_file", path)])
  end.

(** validation.py 19-24: an empty line, the message, and the entries sorted by name. *)
Definition problem_lines (p : run_problem) : list string :=
  let '(msg, l) := problem_entries p in
  "" :: msg :: map (fun e => ("  " ++ fst e ++ ": " ++ snd e)%string) (isort (fun a b => String.leb (fst a) (fst b)) l).

(** validation.py 212, 215, 220, 222-223 *)
Definition line_lines (l : line) : list string :=
  match l with
  | LChecking true path => [("Checking run directory: " ++ path)%string]
  | LChecking false path => [("Checking file: " ++ path)%string]
  | LNoProblems => ["No problems found"]
  | LFailed => ["Validation failed!"]
  | LProblem p => problem_lines p
  end.
Definition report (ls : list line) : string := print_lines (List.concat (map line_lines ls)).
End Text.
