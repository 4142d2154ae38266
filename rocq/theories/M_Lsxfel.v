(** FilenameInfo (karabo_data/read_machinery.py 167-193) and the command lsxfel (karabo_data/lsxfel.py).

    Only the values in the printed lines are here; M_LsText has the text. *)

From Verif Require Import Base PyStr M_Files M_Reader M_FilesMap M_Stacking M_Info M_OpenRun.
Set Implicit Arguments.
Local Open Scope string_scope.
Local Open Scope list_scope.

(** os.path.basename: what follows the last slash. *)
Fixpoint basename (p : string) : string :=
  match p with
  | "" => ""
  | String c r => if char_in slash p then basename r else p
  end.

(** [s[:-3]] *)
Definition drop_last3 (s : string) : string := substring 0 (String.length s - 3) s.

(** The character class [A-Z]. *)
Definition is_upper (c : ascii) : bool := (65 <=? nat_of_ascii c)%nat && (nat_of_ascii c <=? 90)%nat.
Fixpoint take_upper (s : string) : string * string :=
  match s with
  | "" => ("", "")
  | String c r => if is_upper c then let '(a, b) := take_upper r in (String c a, b) else ("", s)
  end.

(** read_machinery.py 179: the groups of [([A-Z]+)(\d+)] matched at the start.  Both repetitions take as much as they
    can; giving back a letter never helps, as a letter is no digit. *)
Definition source_groups (s : string) : option (string * string) :=
  let '(a, r) := take_upper s in
  let '(d, _) := take_digits r in
  if String.eqb a "" || String.eqb d "" then None else Some (a, d).

(** read_machinery.py 17 *)
Definition DETECTOR_NAMES : list string := ["AGIPD"; "DSSC"; "LPD"].

(** The attribute description: a str, or (line 192, a slip) a tuple of two. *)
Inductive descr := DText (s : string) | DPair (s t : string).

Record fname_info := mk_fname { fn_base : string; fn_detector : bool; fn_name : option string; fn_module : option string; fn_descr : descr }.

(** read_machinery.py 172 *)
Definition rawcorr_descr (r : string) : string := if String.eqb r "RAW" then "Raw" else if String.eqb r "CORR" then "Corrected" else "?".

(** read_machinery.py 167-193.  detector_moduleno is the str of digits; -1 if there is none is [None] here. *)
Definition filename_info (path : string) : res fname_info :=
  let b := basename path in
  match py_split "-" (drop_last3 b) with
  | [rawcorr; _; datasrc; _] =>
      Ok match source_groups datasrc with
         | Some (name, num) =>
             if String.eqb name "DA" then mk_fname b false None None (DText "Aggregated data")
             else if str_in name DETECTOR_NAMES then
               mk_fname b true (Some name) (Some num)
                 (DText (rawcorr_descr rawcorr ++ " detector data from " ++ name ++ " module " ++ num)%string)
             else mk_fname b false None None (DPair "Unknown data source ({})" datasrc)
         | None => mk_fname b false None None (DPair "Unknown data source ({})" datasrc)
         end
  | _ => Err EAssertionError
  end.

(** lsxfel.py 79: group 1 of [(.+)-S\d+\.h5] matched at the start, which need not match the whole name.  The first
    group is as long as possible; '.' is any character but a newline. *)
Definition is_newline (c : ascii) : bool := (nat_of_ascii c =? 10)%nat.
Definition segment_tail (s : string) : bool :=
  match strip_prefix "-S" s with
  | Some r => let '(d, t) := take_digits r in negb (String.eqb d "") && starts_with ".h5" t
  | None => false
  end.
Fixpoint segment_group (s : string) : option string :=
  match s with
  | "" => None
  | String c r =>
      if is_newline c then None
      else match segment_group r with
           | Some g => Some (String c g)
           | None => if segment_tail r then Some (String c "") else None
           end
  end.

(** lsxfel.py 81: the lists of the defaultdict, in order of insertion. *)
Fixpoint group_add (k f : string) (l : list (string * list string)) : list (string * list string) :=
  match l with
  | [] => [(k, [f])]
  | (k', fs) :: r => if String.eqb k k' then (k', fs ++ [f]) :: r else (k', fs) :: group_add k f r
  end.

(** [re.match(r'r\d+', f)] *)
Definition run_dir_name (f : string) : bool :=
  match strip_prefix "r" f with Some r => match take_digits r with ("", _) => false | _ => true end | None => false end.

Fixpoint rstrip_slash (s : string) : string :=
  match s with
  | "" => ""
  | String c r => match rstrip_slash r with "" => if Ascii.eqb c slash then "" else String c "" | r' => String c r' end
  end.

Section Ls.
Context {V : Type}.
Notation dcoll := (dcoll V).
(** [pop] of a set of numbers and [next(iter(...))] of a set of names: which element is arbitrary. *)
Variable pop : list Z -> Z.
Variable pick_one : list string -> string.

(** What the operating system and the reader answer: listdir in any order, abspath, H5File, RunDirectory. *)
Record env := mk_env { e_isdir : string -> bool; e_isfile : string -> bool; e_list : string -> list string;
  e_abspath : string -> string; e_h5 : string -> res dcoll; e_rundir : string -> res dcoll }.
Variable E : env.

(** The values in the lines of output. *)
Inductive note := NotFound | BadFile | BadDir | ProposalData | Proposal | RunDir.
Inductive line :=
| LName (name : string) (d : descr)
| LTrains (n : nat)
| LPixels (a b : Z)
| LFrames (per_train total : Z)
| LInst (l : list string)
| LCtrl (l : list string)
| LSumDet (trains : nat) (per_train total : Z)
| LRun (indent name : string) (trains detector others : nat)
| LInfo (i : rinfo)
| LNote (name : string) (n : note)
| LRaw (name : string).

(** Output printed so far, and the result or exception. *)
Definition W (A : Type) := (list line * res A)%type.
Definition wret {A} (a : A) : W A := ([], Ok a).
Definition lift {A} (r : res A) : W A := ([], r).
Definition emit (l : line) : W unit := ([l], Ok tt).
Definition wbind {A B} (m : W A) (f : A -> W B) : W B :=
  match m with
  | (o, Ok a) => let '(o', r) := f a in (o ++ o', r)
  | (o, Err e) => (o, Err e)
  end.
Local Notation "'let!' x := m 'in' f" := (wbind m (fun x => f)) (at level 200, x name, f at level 200).
Local Notation "m ;; f" := (wbind m (fun _ => f)) (at level 199, right associativity).
Fixpoint each {A} (f : A -> W unit) (l : list A) : W unit :=
  match l with [] => wret tt | x :: r => f x ;; each f r end.

(** next(iter(h5file.detector_sources)); StopIteration is EException here. *)
Definition first_detector (d : dcoll) : res string :=
  match detector_sources d with [] => Err EException | l => Ok (pick_one l) end.

(** lsxfel.py 14-40 *)
Definition describe_file (path : string) : W unit :=
  let! i := lift (filename_info (basename path)) in
  emit (LName (basename path) (fn_descr i)) ;;
  let! d := lift (e_h5 E path) in
  emit (LTrains (List.length (dc_tids d))) ;;
  if fn_detector i then
    let! s := lift (first_detector d) in
    let! di := lift (detector_info pop d s) in
    match di_dims di with
    | [a; b] => emit (LPixels a b) ;; emit (LFrames (di_frames di) (di_total di))
    | _ => lift (Err EIndexError)
    end
  else emit (LInst (str_sort (dc_inst d))) ;; emit (LCtrl (str_sort (dc_ctrl d))).

(** lsxfel.py 43-58.  h5file.sources does not exist: AttributeError. *)
Definition summarise_file (path : string) : W unit :=
  let! i := lift (filename_info (basename path)) in
  emit (LName (basename path) (fn_descr i)) ;;
  let! d := lift (e_h5 E path) in
  if fn_detector i then
    let! s := lift (first_detector d) in
    let! di := lift (detector_info pop d s) in
    emit (LSumDet (List.length (dc_tids d)) (di_frames di) (di_total di))
  else lift (Err EAttributeError).

(** lsxfel.py 61-67 *)
Definition describe_run (path : string) : W unit :=
  emit (LNote (basename path) RunDir) ;;
  let! d := lift (e_rundir E path) in
  let! i := lift (run_info pop true d) in
  emit (LInfo i).

(** lsxfel.py 76-85 *)
Definition scan_step (acc : list (string * list string) * nat * nat) (f : string) : res (list (string * list string) * nat * nat) :=
  match segment_group (basename f) with
  | None => Ok acc
  | Some g =>
      let '(groups, ndet, nother) := acc in
      let* i := filename_info f in
      Ok (if fn_detector i then (group_add g f groups, S ndet, nother) else (group_add g f groups, ndet, S nother))
  end.

(** lsxfel.py 90-91: sorted by length, a stable sort; the first one. *)
Definition shortest (groups : list (string * list string)) : list string :=
  hd [] (isort (fun a b => (List.length a <=? List.length b)%nat) (map snd groups)).

(** lsxfel.py 70-98 *)
Definition summarise_run (path indent : string) : W unit :=
  let! s := lift (foldM scan_step ([], 0%nat, 0%nat) (str_sort (e_list E path))) in
  let '(groups, ndet, nother) := s in
  match groups with
  | [] => lift (Err EValueError)
  | _ =>
      let! ids := lift (mapM (fun f => let* d := e_h5 E (path_join path f) in Ok (dc_tids d)) (shortest groups)) in
      emit (LRun indent (basename path) (List.length (zdedup (List.concat ids))) ndet nother)
  end.

(** lsxfel.py 121-124, 129-132, 158-161 *)
Definition summarise_runs (dir : string) (contents : list string) : W unit :=
  each (fun f => if run_dir_name f && e_isdir E (path_join dir f) then summarise_run (path_join dir f) "  " else wret tt) contents.

(** lsxfel.py 108-143.  The result is the return value, None being 0 (sys.exit(None) is status 0). *)
Definition main_one (path : string) : W Z :=
  let name := basename (e_abspath E (rstrip_slash path)) in
  if e_isdir E path then
    let contents := str_sort (e_list E path) in
    if existsb (ends_with ".h5") contents then describe_run path ;; wret 0%Z
    else if existsb run_dir_name contents then
      emit (LNote name ProposalData) ;; summarise_runs path contents ;; wret 0%Z
    else if e_isdir E (path_join path "raw") then
      emit (LNote name Proposal) ;; emit (LRaw name) ;;
      summarise_runs (path_join path "raw") (str_sort (e_list E (path_join path "raw"))) ;; wret 0%Z
    else emit (LNote name BadDir) ;; wret 0%Z
  else if e_isfile E path then
    if ends_with ".h5" path then describe_file path ;; wret 0%Z
    else emit (LNote name BadFile) ;; wret 2%Z
  else emit (LNote path NotFound) ;; wret 2%Z.

(** lsxfel.py 146-173: one turn of the loop; whether the exit code is set to 2. *)
Definition one_of_many (path : string) : W bool :=
  let name := basename path in
  if e_isdir E path then
    let contents := e_list E path in
    if existsb (ends_with ".h5") contents then summarise_run path "" ;; wret false
    else if existsb run_dir_name contents then
      emit (LNote name Proposal) ;; summarise_runs path contents ;; wret false
    else emit (LNote name BadDir) ;; wret true
  else if e_isfile E path then
    if ends_with ".h5" path then summarise_file path ;; wret false
    else emit (LNote name BadFile) ;; wret true
  else emit (LNote path NotFound) ;; wret true.
Fixpoint main_many (code : Z) (paths : list string) : W Z :=
  match paths with
  | [] => wret code
  | p :: r => let! bad := one_of_many p in main_many (if bad then 2%Z else code) r
  end.

(** lsxfel.py 100-175; [cwd] is the current directory. *)
Definition main (cwd : string) (paths : list string) : W Z :=
  match paths with
  | [] => main_one (e_abspath E cwd)
  | [p] => main_one p
  | _ => main_many 0%Z paths
  end.
End Ls.
