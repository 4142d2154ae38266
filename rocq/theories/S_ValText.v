(** Specification vocabulary: the report printed by karabo-data-validate. *)
From Verif Require Import Base M_Files S_Open S_OpenRun S_Repr S_InfoText M_Validation M_Validate.
Set Implicit Arguments.
Local Open Scope string_scope.
Local Open Scope list_scope.

Definition nat_expr (n : nat) (s : string) : Prop := int_expr (Z.of_nat n) s.

(** The printed lines on a problem of the file [file]. *)
Inductive tells_kind (file : string) : problem_kind -> list string -> Prop :=
| tk_zeroes : tells_kind file PZeroesBefore
    ["Zeroes in trainId index before last train ID"; "  dataset: INDEX/trainId"; ("  file: " ++ file)%string]
| tk_order pos a b p x y : nat_expr pos p -> int_expr a x -> int_expr b y -> tells_kind file (PNotIncreasing pos a b)
    [("Train IDs are not strictly increasing, e.g. at " ++ p ++ " (" ++ x ++ " >= " ++ y ++ ")")%string; "  dataset: INDEX/trainId"; ("  file: " ++ file)%string]
| tk_outside ds m n x y : int_expr m x -> int_expr n y -> tells_kind file (POutside ds m n)
    [("Index referring to data (" ++ x ++ ") outside dataset (" ++ y ++ ")")%string; ("  dataset: " ++ ds)%string; ("  file: " ++ file)%string]
| tk_different ix nf nc x y : nat_expr nf x -> nat_expr nc y -> tells_kind file (PDifferentNumber ix nf nc)
    ["Index first & count have different number of entries"; ("  count_shape: (" ++ y ++ ",)")%string; ("  dataset: " ++ ix)%string;
     ("  file: " ++ file)%string; ("  first_shape: (" ++ x ++ ",)")%string]
| tk_wrong ix n nt x y : nat_expr n x -> nat_expr nt y -> tells_kind file (PWrongNumber ix n nt)
    ["Index has wrong number of entries"; ("  dataset: " ++ ix)%string; ("  file: " ++ file)%string;
     ("  index_shape: (" ++ x ++ ",)")%string; ("  trainids_shape: (" ++ y ++ ",)")%string]
| tk_start ix : tells_kind file (PNotAtZero ix) ["Index doesn't start at 0"; ("  dataset: " ++ ix)%string; ("  file: " ++ file)%string]
| tk_gaps ix n pos f c g x p u v w : nat_expr n x -> nat_expr pos p -> int_expr f u -> int_expr c v -> int_expr g w -> tells_kind file (PGaps ix n pos f c g)
    [("Gaps (" ++ x ++ ") in index, e.g. at " ++ p ++ " (" ++ u ++ " + " ++ v ++ " < " ++ w ++ ")")%string; ("  dataset: " ++ ix)%string; ("  file: " ++ file)%string]
| tk_overlaps ix n pos f c g x p u v w : nat_expr n x -> nat_expr pos p -> int_expr f u -> int_expr c v -> int_expr g w -> tells_kind file (POverlaps ix n pos f c g)
    [("Overlaps (" ++ x ++ ") in index, e.g. at " ++ p ++ " (" ++ u ++ " + " ++ v ++ " > " ++ w ++ ")")%string; ("  dataset: " ++ ix)%string; ("  file: " ++ file)%string].

(** The lines on one problem of a run; [err]: the text of an exception, [dir]: the run directory, [cache]: the file with the map. *)
Inductive tells_problem (err : exn -> string) (dir cache : string) : run_problem -> list string -> Prop :=
| tp_open path e : tells_problem err dir cache (RNotOpened path e) [""; "Could not open file"; ("  error: " ++ err e)%string; ("  file: " ++ path)%string]
| tp_none : tells_problem err dir cache RNoUsableFiles [""; "No usable files found"; ("  directory: " ++ dir)%string]
| tp_file file k ls : tells_kind file k ls -> tells_problem err dir cache (RFileProblem (mk_problem file k)) ("" :: ls)
| tp_cache path : tells_problem err dir cache (RCacheWrong path)
    [""; "Incorrect data map cache entry"; ("  cache_file: " ++ cache)%string; ("  data_file: " ++ path)%string].

Inductive tells_line (err : exn -> string) (dir cache : string) : line -> list string -> Prop :=
| tl_dir path : tells_line err dir cache (LChecking true path) [("Checking run directory: " ++ path)%string]
| tl_path path : tells_line err dir cache (LChecking false path) [("Checking file: " ++ path)%string]
| tl_good : tells_line err dir cache LNoProblems ["No problems found"]
| tl_failed : tells_line err dir cache LFailed ["Validation failed!"]
| tl_problem p ls : tells_problem err dir cache p ls -> tells_line err dir cache (LProblem p) ls.

(** Names without line breaks. *)
Definition plain_kind (k : problem_kind) : Prop :=
  match k with
  | PZeroesBefore | PNotIncreasing _ _ _ => True
  | POutside s _ _ | PDifferentNumber s _ _ | PWrongNumber s _ _ | PNotAtZero s | PGaps s _ _ _ _ _ | POverlaps s _ _ _ _ _ => one_line s
  end.
Definition plain_report (err : exn -> string) (dir cache : string) (l : line) : Prop :=
  match l with
  | LChecking _ path => one_line path
  | LNoProblems | LFailed => True
  | LProblem (RNotOpened path e) => one_line path /\ one_line (err e)
  | LProblem RNoUsableFiles => one_line dir
  | LProblem (RFileProblem (mk_problem file k)) => one_line file /\ plain_kind k
  | LProblem (RCacheWrong path) => one_line cache /\ one_line path
  end.

(** The same statement is made: of the exception the text is seen. *)
Definition same_report (err err' : exn -> string) (dir dir' cache cache' : string) (a b : line) : Prop :=
  match a, b with
  | LProblem (RNotOpened p e), LProblem (RNotOpened p' e') => p = p' /\ err e = err' e'
  | LProblem RNoUsableFiles, LProblem RNoUsableFiles => dir = dir'
  | LProblem (RCacheWrong p), LProblem (RCacheWrong p') => p = p' /\ cache = cache'
  | _, _ => a = b
  end.
