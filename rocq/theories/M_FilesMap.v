(** Model of karabo_data/run_files_map.py and of its use when a run is opened. *)
From Verif Require Import Base PyStr M_Files M_Reader.
Set Implicit Arguments.
Local Open Scope string_scope.
Local Open Scope list_scope.

Definition upd {A} (f : nat -> A) (i : nat) (a : A) : nat -> A := fun j => if Nat.eqb j i then a else f j.
Definition supd {A} (f : string -> A) (i : string) (a : A) : string -> A := fun j => if String.eqb j i then a else f j.

(** * atomic_dump, run_files_map.py 14-31, by any number of processes *)
Section Dump.
Context {B : Type}.   (* a byte *)

(** A file system: names refer to inodes, inodes have contents. *)
Record fsys := mk_fs { fs_names : string -> option nat; fs_data : nat -> list B; fs_next : nat }.

(** A process which saves a map, or which reads the cache file.
    [pieces] are the byte strings json.dump and the buffering of the file object
    end up writing, one after another; [all] is all of it.
    Readers (open, read, ..., end of file) read any number of bytes at a time.
    A process that is killed takes no more steps. *)
Inductive proc :=
| WStart (pieces : list (list B))                                   (* line 21-22 next *)
| WWrite (tmp : string) (ino : nat) (rest : list (list B)) (all : list B)  (* line 23-25 *)
| WUnlink (tmp : string) (all : list B)                             (* line 26-28 *)
| WReplace (tmp : string) (ino : nat) (all : list B)                (* line 30 next *)
| WDone (all : list B)
| WFailed (all : list B)                                            (* raised an exception *)
| RStart                                                            (* line 87 next *)
| RRead (ino : nat) (got : list B)                                  (* line 88: reading *)
| RAbsent                                                           (* FileNotFoundError *)
| RDone (got : list B).

Definition rename_in (names : string -> option nat) (tmp target : string) : string -> option nat :=
  supd (supd names target (names tmp)) tmp None.

(** One step of one process; [target] is the path of the cache file.  mkstemp creates
    a new file under a name which did not exist (O_EXCL) and differs from the
    target (it is the target's name and random characters). *)
Inductive pstep (target : string) : fsys -> proc -> fsys -> proc -> Prop :=
| st_mkstemp : forall fs ps tmp, fs_names fs tmp = None -> tmp <> target ->
    pstep target fs (WStart ps)
      (mk_fs (supd (fs_names fs) tmp (Some (fs_next fs))) (upd (fs_data fs) (fs_next fs) []) (S (fs_next fs)))
      (WWrite tmp (fs_next fs) ps (List.concat ps))
| st_mkstemp_fails : forall fs ps, pstep target fs (WStart ps) fs (WFailed (List.concat ps))
| st_write : forall fs tmp ino p rest all,
    pstep target fs (WWrite tmp ino (p :: rest) all)
      (mk_fs (fs_names fs) (upd (fs_data fs) ino (fs_data fs ino ++ p)) (fs_next fs)) (WWrite tmp ino rest all)
| st_write_fails : forall fs tmp ino rest all,
    pstep target fs (WWrite tmp ino rest all) fs (WUnlink tmp all)
| st_unlink : forall fs tmp all,
    pstep target fs (WUnlink tmp all) (mk_fs (supd (fs_names fs) tmp None) (fs_data fs) (fs_next fs)) (WFailed all)
| st_unlink_fails : forall fs tmp all, pstep target fs (WUnlink tmp all) fs (WFailed all)
| st_close : forall fs tmp ino all, pstep target fs (WWrite tmp ino [] all) fs (WReplace tmp ino all)
| st_replace : forall fs tmp ino all, fs_names fs tmp <> None ->
    pstep target fs (WReplace tmp ino all)
      (mk_fs (rename_in (fs_names fs) tmp target) (fs_data fs) (fs_next fs)) (WDone all)
| st_replace_fails : forall fs tmp ino all, pstep target fs (WReplace tmp ino all) fs (WFailed all)
| st_open : forall fs ino, fs_names fs target = Some ino -> pstep target fs RStart fs (RRead ino [])
| st_open_absent : forall fs, fs_names fs target = None -> pstep target fs RStart fs RAbsent
| st_read : forall fs ino got n,
    pstep target fs (RRead ino got) fs (RRead ino (got ++ firstn n (skipn (List.length got) (fs_data fs ino))))
| st_eof : forall fs ino got, (List.length (fs_data fs ino) <= List.length got)%nat ->
    pstep target fs (RRead ino got) fs (RDone got).

(** All processes together, in any order. *)
Record system := mk_sys { sy_fs : fsys; sy_procs : nat -> proc }.
Inductive sstep (target : string) : system -> system -> Prop :=
| sstep_proc : forall s i fs' p', pstep target (sy_fs s) (sy_procs s i) fs' p' ->
    sstep target s (mk_sys fs' (upd (sy_procs s) i p')).
Inductive ssteps (target : string) (s0 : system) : system -> Prop :=
| ssteps_refl : ssteps target s0 s0
| ssteps_more : forall s s', ssteps target s0 s -> sstep target s s' -> ssteps target s0 s'.

End Dump.
Arguments fsys B : clear implicits.
Arguments proc B : clear implicits.
Arguments system B : clear implicits.

(** * RunFilesMap *)

(** What is known about a data file: train IDs and sources (sets). *)
Record finfo := mk_info { fi_tids : list Z; fi_ctrl : list string; fi_inst : list string }.
(** os.stat: modification time and size. *)
Definition fstat := (Z * Z)%type.
(** One element of the JSON list, run_files_map.py 155-162. *)
Record fentry := mk_entry { fe_name : string; fe_stat : fstat; fe_info : finfo }.
Definition files_data := list (string * fentry).

Definition stat_eqb (a b : fstat) : bool := (fst a =? fst b)%Z && (snd a =? snd b)%Z.

(** run_files_map.py 95-102: one iteration of the loop over the loaded entries. *)
Definition load_entry (stat : string -> option fstat) (acc : files_data) (e : fentry) : files_data :=
  match stat (fe_name e) with
  | None => acc
  | Some st => if stat_eqb st (fe_stat e) then dict_set (fe_name e) e acc else acc
  end.

(** The state of a candidate path: no such file, cannot be opened (an OSError other than
    FileNotFoundError, such as PermissionError), not JSON, JSON of
    another form (iterating over it or subscripting raises), a map. *)
Inductive cache_file :=
| CAbsent
| CUnreadable (e : exn)
| CGarbage
| COther (e : exn)
| CMap (l : list fentry).

(** run_files_map.py 81-93: the first candidate which can be loaded; only
    FileNotFoundError and JSONDecodeError are caught. *)
Fixpoint load_json (paths : list cache_file) : res (list fentry) :=
  match paths with
  | [] => Ok []
  | CAbsent :: r => load_json r
  | CGarbage :: r => load_json r
  | CUnreadable e :: _ => Err e
  | COther e :: _ => Err e
  | CMap l :: _ => Ok l
  end.
(** run_files_map.py 76-106: [load]. *)
Definition load_map (paths : list cache_file) (stat : string -> option fstat) : res files_data :=
  let* l := load_json paths in Ok (fold_left (load_entry stat) l []).

(** run_files_map.py 111-125: [get], for files of the map's directory. *)
Definition map_get (m : files_data) (name : string) : option finfo :=
  match dict_get name m with Some e => Some (fe_info e) | None => None end.

(** [sorted] of a set of strings. *)
Definition str_sort (l : list string) : list string := isort String.leb l.

(** run_files_map.py 127-162: the new entries of [save].  Each file comes with the result
    of the stat of its descriptor. *)
Definition save_entry (m : files_data) (f : string * fstat * finfo) : files_data :=
  let '(name, st, i) := f in
  match dict_get name m with
  | Some _ => m
  | None => dict_set name (mk_entry name st (mk_info (fi_tids i) (str_sort (fi_ctrl i)) (str_sort (fi_inst i)))) m
  end.
Definition need_save (m : files_data) (files : list (string * fstat * finfo)) : bool :=
  existsb (fun f => match dict_get (fst (fst f)) m with Some _ => false | None => true end) files.
(** run_files_map.py 166: sorted by name. *)
Definition save_data (m : files_data) : list fentry :=
  map snd (isort (fun a b => String.leb (fst a) (fst b)) m).

(** The outcome of trying to write one candidate (makedirs and atomic_dump). *)
Inductive write_result := WrOk | WrPermission | WrError (e : exn).
(** run_files_map.py 167-178: write to the first path which gives no PermissionError; other
    exceptions propagate. *)
Fixpoint write_first (l : list fentry) (paths : list (cache_file * write_result)) : res (list cache_file) :=
  match paths with
  | [] => Ok []
  | (c, WrOk) :: r => Ok (CMap l :: map fst r)
  | (c, WrPermission) :: r => let* r' := write_first l r in Ok (c :: r')
  | (c, WrError e) :: _ => Err e
  end.
Definition save_map (m : files_data) (files : list (string * fstat * finfo)) (paths : list (cache_file * write_result))
  : res (list cache_file) :=
  if need_save m files then write_first (save_data (fold_left save_entry files m)) paths
  else Ok (map fst paths).

(** reader.py 256-272 and 1336-1348: RunDirectory on the data files [names]; [read] gives what opening a data
    file directly finds.  Files known to the map are not opened. *)
Definition open_one_file (read : string -> res (finfo)) (m : files_data) (name : string) : option (string * finfo) :=
  match map_get m name with
  | Some i => Some (name, i)
  | None => match read name with Ok i => Some (name, i) | Err _ => None end
  end.
Definition filter_map {A B} (f : A -> option B) (l : list A) : list B :=
  flat_map (fun x => match f x with Some y => [y] | None => [] end) l.
Definition open_run_files (read : string -> res finfo) (m : files_data) (names : list string) : list (string * finfo) :=
  filter_map (open_one_file read m) names.
Definition run_directory (names : list string) (stat : string -> option fstat) (read : string -> res finfo)
  (paths : list (cache_file * write_result)) : res (list (string * finfo) * list cache_file) :=
  match names with
  | [] => Err EException
  | _ =>
      let* m := load_map (map fst paths) stat in
      let files := open_run_files read m names in
      match files with
      | [] => Err EException
      | _ =>
          let* c := save_map m (filter_map (fun f => match stat (fst f) with Some st => Some (fst f, st, snd f) | None => None end) files) paths in
          Ok (files, c)
      end
  end.

(** * Opening a run while files change *)
(** Data files are replaced (new inode), and processes run RunDirectory.  Every
    access to the file system is one step. *)
Record inode := mk_inode { in_stat : fstat; in_info : res finfo }.

(** RunDirectory step by step: reading the JSON (line 87-93), the stat of each entry (95-102),
    opening each file (from_paths), saving.  [opened] holds the results in reverse
    order, with the inode of the files really opened. *)
Inductive opener :=
| OIdle (names : list string)
| OLoad (names : list string) (todo : list fentry) (m : files_data)
| OOpen (todo : list string) (m : files_data) (opened : list (string * option nat * finfo))
| ODone (m : files_data) (opened : list (string * option nat * finfo)).

Record world := mk_world {
  w_names : string -> option nat;
  w_inodes : nat -> inode;
  w_next : nat;
  w_cache : list cache_file;
  w_procs : nat -> opener
}.
Definition w_stat (w : world) (name : string) : option fstat :=
  match w_names w name with Some i => Some (in_stat (w_inodes w i)) | None => None end.
Definition w_read (w : world) (name : string) : res finfo :=
  match w_names w name with Some i => in_info (w_inodes w i) | None => Err EFileNotFoundError end.
Definition set_proc (w : world) (p : nat) (o : opener) : world :=
  mk_world (w_names w) (w_inodes w) (w_next w) (w_cache w) (upd (w_procs w) p o).

(** The files really opened, with what fstat gives now. *)
Definition to_save (w : world) (opened : list (string * option nat * finfo)) : list (string * fstat * finfo) :=
  filter_map (fun o => match snd (fst o) with
                       | Some i => Some (fst (fst o), in_stat (w_inodes w i), snd o)
                       | None => None end) (rev opened).

Inductive wstep : world -> world -> Prop :=
(* somebody puts a data file in place (a new inode), or removes it *)
| ws_replace : forall w name st i,
    wstep w (mk_world (supd (w_names w) name (Some (w_next w))) (upd (w_inodes w) (w_next w) (mk_inode st i))
                      (S (w_next w)) (w_cache w) (w_procs w))
| ws_remove : forall w name,
    wstep w (mk_world (supd (w_names w) name None) (w_inodes w) (w_next w) (w_cache w) (w_procs w))
(* a process reads the cached map *)
| ws_json : forall w p names l, w_procs w p = OIdle names -> load_json (w_cache w) = Ok l ->
    wstep w (set_proc w p (OLoad names l []))
| ws_stat : forall w p names e l m, w_procs w p = OLoad names (e :: l) m ->
    wstep w (set_proc w p (OLoad names l (load_entry (w_stat w) m e)))
| ws_loaded : forall w p names m, w_procs w p = OLoad names [] m -> wstep w (set_proc w p (OOpen names m []))
(* it opens the files *)
| ws_cached : forall w p name names m o i, w_procs w p = OOpen (name :: names) m o -> map_get m name = Some i ->
    wstep w (set_proc w p (OOpen names m ((name, None, i) :: o)))
| ws_open : forall w p name names m o ino i, w_procs w p = OOpen (name :: names) m o -> map_get m name = None ->
    w_names w name = Some ino -> in_info (w_inodes w ino) = Ok i ->
    wstep w (set_proc w p (OOpen names m ((name, Some ino, i) :: o)))
| ws_skip : forall w p name names m o e, w_procs w p = OOpen (name :: names) m o -> map_get m name = None ->
    w_read w name = Err e -> wstep w (set_proc w p (OOpen names m o))
(* it saves the map, to any of the candidates, or fails to *)
| ws_save : forall w p m o c a b, w_procs w p = OOpen [] m o -> w_cache w = a ++ c :: b ->
    wstep w (mk_world (w_names w) (w_inodes w) (w_next w)
              (if need_save m (to_save w o) then a ++ CMap (save_data (fold_left save_entry (to_save w o) m)) :: b else w_cache w)
              (upd (w_procs w) p (ODone m o)))
| ws_not_saved : forall w p m o, w_procs w p = OOpen [] m o -> wstep w (set_proc w p (ODone m o)).

(** The same, but data files may also be changed in place. *)
Inductive wstep_inplace : world -> world -> Prop :=
| wi_step : forall w w', wstep w w' -> wstep_inplace w w'
| wi_change : forall w name ino st i, w_names w name = Some ino ->
    wstep_inplace w (mk_world (w_names w) (upd (w_inodes w) ino (mk_inode st i)) (w_next w) (w_cache w) (w_procs w)).

(** Executions, the latest state first. *)
Inductive exec (step : world -> world -> Prop) (w0 : world) : list world -> Prop :=
| exec_init : exec step w0 [w0]
| exec_step : forall w w' l, exec step w0 (w :: l) -> step w w' -> exec step w0 (w' :: w :: l).
