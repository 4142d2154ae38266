(** Model of open_run (reader.py 1355-1395) and find_proposal
    (read_machinery.py 195-207): which run directory is opened for a proposal and a
    run number. *)

From Verif Require Import Base PyStr M_Cxi.

Local Open Scope string_scope.
Local Open Scope Z_scope.
Local Open Scope list_scope.

(** The proposal and run arguments: an int or a str. *)
Inductive number_arg := ArgInt (n : Z) | ArgStr (s : string).

(** '{:0Wd}'.format(n): at least W characters, the sign counted. *)
Definition format_0d (w : nat) (n : Z) : string :=
  if n <? 0 then String "-" (py_rjust (str_of_int (- n)) (w - 1) "0") else py_rjust (str_of_int n) w "0".

(** os.path.join of two paths (posixpath.py): an absolute second path replaces the
    first one. *)
Definition path_join (a b : string) : string :=
  if starts_with "/" b then b
  else if String.eqb a "" || ends_with "/" a then (a ++ b)%string
  else (a ++ "/" ++ b)%string.

(** reader.py 1378-1381 *)
Definition proposal_arg (p : number_arg) : string :=
  match p with
  | ArgInt n => ("p" ++ format_0d 6 n)%string
  | ArgStr s => if negb (char_in slash s) && negb (starts_with "p" s) then ("p" ++ py_rjust s 6 "0")%string else s
  end.

(** reader.py 1385-1388 *)
Definition run_arg (r : number_arg) : string :=
  match r with
  | ArgInt n => ("r" ++ format_0d 4 n)%string
  | ArgStr s => if negb (starts_with "r" s) then ("r" ++ py_rjust s 4 "0")%string else s
  end.

(** read_machinery.py 20 *)
Definition DATA_ROOT_DIR : string := "/gpfs/exfel/exp".

(** read_machinery.py 195-207.  [glob]: the results of glob.iglob for a pattern, in
    order; nothing is assumed about it. *)
Definition find_proposal (glob : string -> list string) (p : string) : res string :=
  if char_in slash p then Ok p
  else match glob (path_join DATA_ROOT_DIR ("*/*/" ++ p)) with
       | d :: _ => Ok d
       | [] => Err EException
       end.

(** reader.py 1378-1390: the directory given to RunDirectory. *)
Definition open_run_path (glob : string -> list string) (proposal run : number_arg) (data : string) : res string :=
  let* prop_dir := find_proposal glob (proposal_arg proposal) in
  Ok (path_join (path_join prop_dir data) (run_arg run)).

(** open_run, for any function [run_directory] in the place of RunDirectory. *)
Definition open_run {A} (glob : string -> list string) (run_directory : string -> string -> res A)
    (proposal run : number_arg) (data include : string) : res A :=
  let* path := open_run_path glob proposal run data in run_directory path include.
