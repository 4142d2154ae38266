(** Specification vocabulary for the cached map of a run. *)
From Verif Require Import Base M_FilesMap.
Set Implicit Arguments.
Local Open Scope string_scope.
Local Open Scope list_scope.

Section D.
Context {B : Type}.
(** What a path contains. *)
Definition contents (fs : fsys B) (name : string) : option (list B) :=
  match fs_names fs name with Some i => Some (fs_data fs i) | None => None end.
(** Nothing has happened yet: every process is about to save some map or to read the cache. *)
Definition fresh_start (s : system B) : Prop :=
  (forall n i, fs_names (sy_fs s) n = Some i -> (i < fs_next (sy_fs s))%nat) /\
  (forall i, sy_procs s i = RStart \/ exists ps, sy_procs s i = WStart ps).
(** Process [i] was to save [all], and has finished saving. *)
Definition saver (s : system B) (i : nat) (all : list B) : Prop :=
  exists ps, sy_procs s i = WStart ps /\ all = List.concat ps.
Definition finished (s : system B) (i : nat) (all : list B) : Prop := sy_procs s i = WDone all.
End D.

(** Two descriptions of a file say the same: sources are sets. *)
Definition same_info (a b : finfo) : Prop :=
  fi_tids a = fi_tids b /\ (forall s, In s (fi_ctrl a) <-> In s (fi_ctrl b)) /\ (forall s, In s (fi_inst a) <-> In s (fi_inst b)).
Definition same_read (a b : res finfo) : Prop :=
  match a, b with Ok x, Ok y => same_info x y | Err e, Err e' => True | _, _ => False end.

(** What opening the files without any cached map gives: those which can be opened. *)
Fixpoint fresh_open (read : string -> res finfo) (names : list string) : list (string * finfo) :=
  match names with
  | [] => []
  | n :: r => match read n with Ok i => (n, i) :: fresh_open read r | Err _ => fresh_open read r end
  end.
Definition same_result (a b : string * finfo) : Prop := fst a = fst b /\ same_info (snd a) (snd b).

(** In the states [ws], a data file of given name, size and modification time always has the same contents. *)
Definition changes_show (ws : list world) : Prop :=
  forall w1 w2 n st, In w1 ws -> In w2 ws -> w_stat w1 n = Some st -> w_stat w2 n = Some st -> w_read w1 n = w_read w2 n.
(** The entries of cached map [c] are right for any state in which they would be used. *)
Definition right_cache (ws : list world) (c : cache_file) : Prop :=
  forall l e w, c = CMap l -> In e l -> In w ws -> w_stat w (fe_name e) = Some (fe_stat e) ->
    exists i, w_read w (fe_name e) = Ok i /\ same_info (fe_info e) i.
(** Before anything is opened: names refer to existing inodes, nobody has started. *)
Definition fresh_world (w : world) : Prop :=
  (forall n i, w_names w n = Some i -> (i < w_next w)%nat) /\ (forall p, exists names, w_procs w p = OIdle names).
(** The result of a process which has opened the run. *)
Definition run_result (o : list (string * option nat * finfo)) : list (string * finfo) :=
  map (fun x => (fst (fst x), snd x)) (rev o).
(** [r] lists the files [names] in order: each either with what it contained in one of the states [ws], or
    left out because in one of them it could not be opened. *)
Inductive opened_in (ws : list world) : list string -> list (string * finfo) -> Prop :=
| oi_nil : opened_in ws [] []
| oi_file : forall n i i' w names r, In w ws -> w_read w n = Ok i' -> same_info i i' -> opened_in ws names r ->
    opened_in ws (n :: names) ((n, i) :: r)
| oi_skip : forall n e w names r, In w ws -> w_read w n = Err e -> opened_in ws names r -> opened_in ws (n :: names) r.

(** What is recorded about a file when the map [m] is saved after opening [files]: its size and time, and its contents. *)
Fixpoint first_file (files : list (string * fstat * finfo)) (n : string) : option (fstat * finfo) :=
  match files with
  | [] => None
  | (n', st, i) :: r => if String.eqb n n' then Some (st, i) else first_file r n
  end.
Definition remembered (m : files_data) (files : list (string * fstat * finfo)) (n : string) : option (fstat * finfo) :=
  match dict_get n m with Some e => Some (fe_stat e, fe_info e) | None => first_file files n end.
(** A candidate path which does no harm: nothing there, not JSON, or a map. *)
Definition harmless (c : cache_file) : Prop := c = CAbsent \/ c = CGarbage \/ exists l, c = CMap l.
Definition right_now (stat : string -> option fstat) (read : string -> res finfo) (c : cache_file) : Prop :=
  forall l e, c = CMap l -> In e l -> stat (fe_name e) = Some (fe_stat e) -> exists i, read (fe_name e) = Ok i /\ same_info (fe_info e) i.
