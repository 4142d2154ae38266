(** Model of serving files: serve_files and the command karabo-bridge-serve-files, /repo/karabo_data/export.py lines
    219-263. *)
From Verif Require Import Base M_Files M_Reader M_Select M_Stream.
Set Implicit Arguments.
Local Open Scope string_scope.
Local Open Scope list_scope.

Section Serve.
Context {V M : Type}.
(** What opening a path gives: RunDirectory(path) or H5File(path). *)
Variable open_run : string -> res (dcoll V).
Variable open_file : string -> res (dcoll V).
(** osp.isdir *)
Variable is_dir : string -> bool.
(** The message made of the data of a train, for the protocol and options of the streamer. *)
Variable ser : list (string * src_data V) -> res M.

(** export.py 244: "if train_data" *)
Definition no_data (r : list (string * src_data V)) : bool := match r with [] => true | _ => false end.
(** export.py 234-246: an exception before the streamer is made, or what the program does with it. *)
Definition serve_files (path source_glob key_glob : string) : res (list (action M)) :=
  let* data := if is_dir path then open_run path else open_file path in
  let* data := select data (SelGlobs [(source_glob, key_glob)]) in
  Ok (serve_program ser no_data (trains data false)).

(** export.py 250-261: the arguments of the command; --source and --key are "*" if not given. *)
Record serve_args := mk_serve { sa_path : string; sa_port : string; sa_source : string; sa_key : string }.
(** export.py 249-263: main *)
Definition serve_main (a : serve_args) : res (list (action M)) := serve_files (sa_path a) "*" "*".
End Serve.
