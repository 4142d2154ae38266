(** Specification of the command karabo-data-make-virtual-cxi: the run and the file meant
    by its arguments. *)
From Verif Require Import Base M_Files M_Reader M_Select M_Components S_Open S_Stacking S_OpenRun S_Reader S_Coll S_Components M_MakeCxi.
Set Implicit Arguments.
Local Open Scope string_scope.
Local Open Scope list_scope.

(** ** Paths *)

(** The absolute path with the components [cs]: /a/b/c. *)
Fixpoint below (cs : list string) : string :=
  match cs with [] => "" | c :: r => ("/" ++ c ++ below r)%string end.
Definition path_of (cs : list string) : string := match cs with [] => "/" | _ => below cs end.

(** The words of a path: [p] is [w1/w2/.../wn]. *)
Fixpoint words (p : string) (ws : list string) : Prop :=
  match ws with
  | [] => False
  | [w] => p = w /\ ~ has_char "/" w
  | w :: r => ~ has_char "/" w /\ exists q, p = (w ++ "/" ++ q)%string /\ words q r
  end.

(** Following the words from a directory: the empty word and the dot stay, two dots go
    up (no further than the root), a name goes down. *)
Definition follow (cs : list string) (w : string) : list string :=
  if String.eqb w "" then cs else if String.eqb w "." then cs else if String.eqb w ".." then removelast cs else cs ++ [w].

Definition absolute (p : string) : Prop := exists q, p = String "/" q.

(** [p], used in the directory [cwd], is the place [cs]. *)
Definition leads (cwd : list string) (p : string) (cs : list string) : Prop :=
  exists ws, words p ws /\
    ((absolute p /\ cs = fold_left follow ws []) \/ (~ absolute p /\ cs = fold_left follow ws cwd)).

(** A path which starts with exactly two slashes may mean something else (POSIX). *)
Definition ordinary (p : string) : Prop := forall q, p = ("//" ++ q)%string -> exists r, q = String "/" r.

Definition name_ok (c : string) : Prop := c <> "" /\ c <> "." /\ c <> ".." /\ ~ has_char "/" c.

(** ** Numbers *)

(** The text [s] is the number [n]: digits with a sign or none. *)
Definition number_text (s : string) (n : Z) : Prop :=
  numeral s n \/ (exists t, s = String "+" t /\ numeral t n) \/ (exists t, s = String "-" t /\ numeral t (- n)%Z).

(** The run directory of number [n]: r0012; four digits, or as many as are needed; a
    minus sign takes the place of one. *)
Definition run_dir_name (n : Z) (r : string) : Prop :=
  exists s, ((0 <= n)%Z /\ padded 4 s n /\ r = String "r" s) \/ ((n < 0)%Z /\ padded 3 s (- n) /\ r = String "r" (String "-" s)).

(** ** The run read and the file written *)

(** [r] is the place [b] in the directory [p], which may be written with a slash at the end. *)
Definition inside (p b r : string) : Prop :=
  (exists q, p = (q ++ "/")%string /\ r = (p ++ b)%string) \/
  (p <> "" /\ (forall q, p <> (q ++ "/")%string) /\ r = (p ++ "/" ++ b)%string).

(** The arguments mean that the run directory [R] is read and the file [F] written.
    Either the proposal directory and the run number are given: the run is in proc; or
    the run directory is: without an output file its path must end in raw/r0012 or
    proc/r0012.  The file is the one given, or one in the directory scratch of the
    proposal with a name made from the run. *)
Inductive designates (cwd : list string) (a : cxi_args) : string -> string -> Prop :=
| by_run_number : forall s n r R F,
    ca_run_number a = Some s -> s <> "" -> number_text s n -> run_dir_name n r ->
    inside (ca_run_dir a) ("proc/" ++ r) R ->
    match ca_output a with
    | Some o => F = o
    | None => inside (ca_run_dir a) ("scratch/" ++ r ++ "_detectors_virt.cxi") F
    end -> designates cwd a R F
| by_directory : forall cs F,
    (ca_run_number a = None \/ ca_run_number a = Some "") -> leads cwd (ca_run_dir a) cs ->
    match ca_output a with
    | Some o => F = o
    | None => exists proposal kind d, cs = proposal ++ [kind; String "r" d] /\ (kind = "raw" \/ kind = "proc") /\
        all_digits d /\ String.length d = 4%nat /\
        F = (below proposal ++ "/scratch/r" ++ d ++ "_" ++ kind ++ "_detectors_virt.cxi")%string
    end -> designates cwd a (path_of cs) F.

(** [dir] is the directory of the file [F]. *)
Definition folder (cwd : list string) (F dir : string) : Prop := exists cs, leads cwd F cs /\ dir = path_of (removelast cs).

(** Arguments without unusual paths: no two slashes at the start, a name for the proposal,
    and no run in /raw or /proc (see C78_root_refuted). *)
Definition usual_args (cwd : list string) (a : cxi_args) : Prop :=
  ordinary (ca_run_dir a) /\ ca_run_dir a <> "" /\ (forall o, ca_output a = Some o -> ordinary o) /\
  (ca_output a = None -> forall k r, ~ leads cwd (ca_run_dir a) [k; r]).

Section D.
Context {V : Type}.
(** The run has a source of a detector of the kind [tag]. *)
Definition has_detector (tag : string) (d : dcoll V) : Prop := exists s p, In s (dc_inst d) /\ det_name tag s p.

(** A run which can be opened, whose files are well formed for its detectors. *)
Definition sound_run (d : dcoll V) : Prop :=
  reachable d /\ distinct_kinds d /\ good_files d /\
  forall tag s p, tag = "_AGIPD1M" \/ tag = "_LPD1M" -> In s (dc_inst d) -> det_name tag s p -> countable d p None.

(** The detector taken: AGIPD if there is one, otherwise LPD; with the shape of its modules. *)
Definition picked (d : dcoll V) (min : Z) (m : mpx V) (shape : list Z) : Prop :=
  (mpx_open "_AGIPD1M" d None None min = Ok m /\ shape = [512; 128]%Z) \/
  (~ has_detector "_AGIPD1M" d /\ mpx_open "_LPD1M" d None None min = Ok m /\ shape = [256; 256]%Z).
End D.
