(** Model of the command karabo-data-validate (validation.py 142-167, 201-226), of glob.glob as used there, and of the
    choice of files in RunDirectory (reader.py 1336-1339). *)
From Verif Require Import Base PyStr M_Files M_Machinery M_Reader M_Glob M_OpenRun M_MakeCxi M_Validation.
Set Implicit Arguments.
Local Open Scope string_scope.
Local Open Scope list_scope.

(** The file system: the names in a directory (None if there is no such directory; the empty path is the current
    directory), and whether there is anything at a path. *)
Record listing := mk_listing { ls_names : string -> option (list string); ls_exists : string -> bool }.
Definition ls_isdir (fs : listing) (p : string) : bool := match ls_names fs p with Some _ => true | None => false end.

(** fnmatch.filter: the names which match the pattern (os.path.normcase changes nothing on POSIX). *)
Definition fnmatch_filter (names : list string) (pat : string) : res (list string) :=
  let* ts := glob_compile pat in Ok (filter (glob_match ts) names).

(** reader.py 1336-1339: the files RunDirectory opens.  os.listdir raises an OSError if there is no such directory. *)
Definition run_directory_files (fs : listing) (path include : string) : res (list string) :=
  match ls_names fs path with
  | None => Err EFileNotFoundError
  | Some names =>
      let* l := fnmatch_filter (filter (ends_with ".h5") names) include in
      match l with [] => Err EException | _ => Ok (map (path_join path) l) end
  end.

(** glob.glob (CPython 3.5-3.8 Lib/glob.py; without recursive patterns).  The path up to the last slash is expanded first.
    [dironly] is not modelled: what is not a directory has no names. *)
Definition has_magic (s : string) : bool := char_in "*"%char s || char_in "?"%char s || char_in "["%char s.
Definition basename (p : string) : string := substring (String.length (head_of p)) (String.length p - String.length (head_of p)) p.
Definition hidden (s : string) : bool := starts_with "." s.
Definition glob1 (fs : listing) (dir pat : string) : res (list string) :=
  let names := match ls_names fs dir with Some l => l | None => [] end in
  fnmatch_filter (if hidden pat then names else filter (fun x => negb (hidden x)) names) pat.
Definition glob0 (fs : listing) (dir base : string) : list string :=
  if String.eqb base "" then (if ls_isdir fs dir then [base] else []) else if ls_exists fs (path_join dir base) then [base] else [].
Fixpoint glob_glob (fuel : nat) (fs : listing) (path : string) : res (list string) :=
  match fuel with
  | O => Err ERuntimeError
  | S fuel =>
      let d := dirname path in
      let b := basename path in
      if negb (has_magic path) then
        Ok (if String.eqb b "" then (if ls_isdir fs d then [path] else []) else if ls_exists fs path then [path] else [])
      else
        let* dirs := if negb (String.eqb d path) && has_magic d then glob_glob fuel fs d else Ok [d] in
        let* found := mapM (fun dir => let* names := (if has_magic b then glob1 fs dir b else Ok (glob0 fs dir b)) in
                                       Ok (map (path_join dir) names)) dirs in
        Ok (List.concat found)
  end.
(** validation.py 149: the files of a run which are validated. *)
Definition validated_files (fs : listing) (run_dir : string) : res (list string) :=
  let pat := path_join run_dir "*.h5" in glob_glob (S (String.length pat)) fs pat.

(** What the command prints; the words are in M_ValText (validation.py 18-26, 212, 215, 220, 222-223). *)
Inductive line := LChecking (directory : bool) (path : string) | LNoProblems | LFailed | LProblem (p : run_problem).
(** validation.py 218-224: the lines after the first one, and the exit status. *)
Definition outcome (ps : list run_problem) : list line * Z :=
  match ps with [] => ([LNoProblems], 0%Z) | _ => (LFailed :: map LProblem ps, 1%Z) end.

(** validation.py 201-224.  [open]: opening a file; [cache]: the cached map of a directory.  For a single file,
    H5File(path) makes a DataCollection of the one file. *)
Definition validate_command {V} (fs : listing) (open : string -> res (faccess V)) (cache : string -> string -> map_entry) (path : string) : res (list line * Z) :=
  if ls_isdir fs path then
    let* files := validated_files fs path in
    let* ps := run_checks (map (fun p => (p, open p)) files) (cache path) in
    Ok (LChecking true path :: fst (outcome ps), snd (outcome ps))
  else
    let* fa := open path in
    let* _ := mk_collection [fa] None None in
    let* ps := file_checks fa in
    Ok (LChecking false path :: fst (outcome (map RFileProblem ps)), snd (outcome (map RFileProblem ps))).
