(** Model of the command karabo-data-make-virtual-cxi (cli/make_virtual_cxi.py): which
    run it reads, which file it writes, and when it writes nothing. *)
From Verif Require Import Base PyStr M_Files M_Machinery M_Reader M_Stacking M_Components M_Cxi M_OpenRun.
Set Implicit Arguments.
Local Open Scope string_scope.
Local Open Scope list_scope.

(** ** posixpath (the standard library, as called in make_virtual_cxi.py 45-63) *)

(** [sep.join(comps)] with a slash. *)
Fixpoint join_slash (l : list string) : string :=
  match l with [] => "" | [c] => c | c :: r => (c ++ "/" ++ join_slash r)%string end.

(** The loop of normpath over the components; [acc] is [new_comps], [abs] whether
    there are initial slashes. *)
Definition norm_step (abs : bool) (acc : list string) (c : string) : list string :=
  if String.eqb c "" || String.eqb c "." then acc
  else if negb (String.eqb c "..") || (negb abs && match acc with [] => true | _ => false end)
          || match acc with [] => false | _ => String.eqb (last acc "") ".." end
  then acc ++ [c]
  else removelast acc.

(** The initial slashes: exactly two are kept, three or more are one. *)
Definition initial_slashes (p : string) : string :=
  if starts_with "/" p then (if starts_with "//" p && negb (starts_with "///" p) then "//" else "/") else "".

Definition normpath (p : string) : string :=
  let comps := fold_left (norm_step (starts_with "/" p)) (py_split slash p) [] in
  let r := (initial_slashes p ++ join_slash comps)%string in
  if String.eqb r "" then "." else r.

(** [os.path.abspath]; [cwd] is os.getcwd(). *)
Definition abspath (cwd p : string) : string :=
  normpath (if starts_with "/" p then p else path_join cwd p).

(** [os.path.dirname]: up to and including the last slash, then without slashes at
    the end unless there is nothing else. *)
Fixpoint head_of (p : string) : string :=
  match p with
  | EmptyString => ""
  | String c r => if char_in slash p then String c (head_of r) else ""
  end.
Fixpoint rstrip_slashes (s : string) : string :=
  match s with
  | EmptyString => ""
  | String c r => match rstrip_slashes r with
                  | EmptyString => if Ascii.eqb c slash then "" else String c ""
                  | t => String c t
                  end
  end.
Definition dirname (p : string) : string :=
  let h := head_of p in
  match rstrip_slashes h with EmptyString => h | t => t end.

(** ** The arguments *)

(** make_virtual_cxi.py 24-37 (argparse itself is not modelled); [None] for what is
    not given. *)
Record cxi_args := mk_cxi_args {
  ca_run_dir : string;
  ca_run_number : option string;
  ca_output : option string;
  ca_min_modules : option Z
}.
(** make_virtual_cxi.py 35: the default of --min-modules. *)
Definition min_modules_of (a : cxi_args) : Z := match ca_min_modules a with Some n => n | None => 9%Z end.

(** int(s): a sign or none, and digits.  (int also accepts white space around the
    number and underscores in it: not modelled, an error here.) *)
Definition py_int (s : string) : res Z :=
  let num t := match take_digits t with
               | (String c d, EmptyString) => Ok (int_of (String c d))
               | _ => Err EValueError
               end in
  match s with
  | String "-" t => let* n := num t in Ok (- n)%Z
  | String "+" t => num t
  | _ => num s
  end.

(** [s] without the suffix [suf], if it has it. *)
Definition strip_suffix (suf s : string) : option string :=
  if ends_with suf s then Some (substring 0 (String.length s - String.length suf) s) else None.

(** make_virtual_cxi.py 55: re.search(r'/(raw|proc)/(r\d{4})/?$', run_dir): the text in
    front of the match, group 1 and group 2.  (Paths without line breaks, ASCII digits.)
    At most one place matches: the match ends at the end of the text. *)
Definition last_n (n : nat) (s : string) : string := substring (String.length s - n) n s.
Definition but_last (n : nat) (s : string) : string := substring 0 (String.length s - n) s.
Definition match_run (run_dir : string) : option (string * string * string) :=
  let s := match strip_suffix "/" run_dir with Some t => t | None => run_dir end in
  let run := last_n 5 s in
  match strip_prefix "r" run with
  | None => None
  | Some num =>
      if (String.length num =? 4)%nat && String.eqb (snd (take_digits num)) "" then
        match strip_suffix "/raw/" (but_last 5 s) with
        | Some p => Some (p, "raw", run)
        | None => match strip_suffix "/proc/" (but_last 5 s) with
                  | Some p => Some (p, "proc", run)
                  | None => None
                  end
        end
      else None
  end.

(** ** The command *)
Section Cmd.
Context {V : Type}.
Variable pulse : V -> Z.

(** What the command finds: the current directory, which paths are readable and
    writable (os.access), and what RunDirectory returns for a path. *)
Record cxi_env := mk_cxi_env {
  en_cwd : string;
  en_read : string -> bool;
  en_write : string -> bool;
  en_run : string -> res (dcoll V)
}.

(** How it ends.  [Wrote dir file c]: the run directory [dir] was read and the file
    [file] written with the contents [c]; in the other cases no file is written. *)
Inductive outcome :=
| Wrote (dir file : string) (c : cxi V)
| NoPattern           (* sys.exit: '-o outfile' option needed *)
| NoRead (dir : string)
| NoWrite (dir : string)
| NoDetector (dir : string)
| Raised (e : exn).

(** make_virtual_cxi.py 15-20, with the [module_shape] of the class (components.py 542, 584). *)
Definition get_detector (d : dcoll V) (min_modules : Z) : res (option (mpx V * list Z)) :=
  match mpx_open "_AGIPD1M" d None None min_modules with
  | Ok m => Ok (Some (m, [512; 128]%Z))
  | Err ESourceNameError =>
      match mpx_open "_LPD1M" d None None min_modules with
      | Ok m => Ok (Some (m, [256; 256]%Z))
      | Err ESourceNameError => Ok None
      | Err e => Err e
      end
  | Err e => Err e
  end.

(** make_virtual_cxi.py 43-61: the run directory and the output file; [None]: the
    directory does not look like a run directory. *)
Definition cxi_plan (cwd : string) (a : cxi_args) : res (option (string * string)) :=
  let by_number := match ca_run_number a with Some s => negb (String.eqb s "") | None => false end in
  if by_number then
    let* n := py_int (match ca_run_number a with Some s => s | None => "" end) in
    let run := ("r" ++ format_0d 4 n)%string in
    let run_dir := path_join (path_join (ca_run_dir a) "proc") run in
    Ok (Some (run_dir, match ca_output a with
                       | Some o => o
                       | None => path_join (path_join (ca_run_dir a) "scratch") (run ++ "_detectors_virt.cxi")
                       end))
  else
    let run_dir := abspath cwd (ca_run_dir a) in
    match ca_output a with
    | Some o => Ok (Some (run_dir, o))
    | None =>
        match match_run run_dir with
        | None => Ok None
        | Some (proposal, kind, run) =>
            Ok (Some (run_dir, path_join (path_join proposal "scratch") (run ++ "_" ++ kind ++ "_detectors_virt.cxi")))
        end
    end.

(** make_virtual_cxi.py 23-76.  write_virtual_cxi opens the output file only after
    everything else has succeeded (write_cxi.py 167-177), so a failure leaves no file.
    (Failures of h5py while it writes are not modelled.) *)
Definition make_virtual_cxi (E : cxi_env) (a : cxi_args) : outcome :=
  match cxi_plan (en_cwd E) a with
  | Err e => Raised e
  | Ok None => NoPattern
  | Ok (Some (run_dir, out_file)) =>
      let out_dir := dirname (abspath (en_cwd E) out_file) in
      if negb (en_read E run_dir) then NoRead run_dir
      else if negb (en_write E out_dir) then NoWrite out_dir
      else
        match (let* d := en_run E run_dir in get_detector d (min_modules_of a)) with
        | Err e => Raised e
        | Ok None => NoDetector run_dir
        | Ok (Some (m, shape)) =>
            match write_virtual_cxi pulse m shape with
            | Ok c => Wrote run_dir out_file c
            | Err e => Raised e
            end
        end
  end.
End Cmd.
Arguments cxi_env V : clear implicits.
Arguments outcome V : clear implicits.
Arguments NoPattern {V}.
Arguments NoRead {V}.
Arguments NoWrite {V}.
Arguments NoDetector {V}.
Arguments Raised {V}.
