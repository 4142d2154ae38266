(** The arguments devices and train_range of trains(), train_from_id() and train_from_index()
    (karabo_data/reader.py 352-391, 393-480). *)

From Verif Require Import Base M_Files M_Machinery M_Reader M_Glob M_Select.
Set Implicit Arguments.

Section Args.
Context {V : Type}.
Notation dcoll := (dcoll V).

Definition select_opt (d : dcoll) (devices : option sel_arg) : res dcoll :=
  match devices with None => Ok d | Some a => select d a end.
Definition select_trains_opt (d : dcoll) (range : option train_range) : res dcoll :=
  match range with None => Ok d | Some tr => select_trains d tr end.

(** reader.py 386-391. *)
Definition trains_args (d : dcoll) (devices : option sel_arg) (range : option train_range) (require_all : bool)
  : res (list (res (Z * list (string * src_data V)))) :=
  let* d1 := select_opt d devices in
  let* d2 := select_trains_opt d1 range in
  Ok (trains d2 require_all).

(** reader.py 417-421: the train is looked up before the selection is made; the recursive call
    does not have the argument. *)
Definition train_from_id_args (d : dcoll) (tid : Z) (devices : option sel_arg) : res (Z * list (string * src_data V)) :=
  if negb (z_in tid (dc_tids d)) then Err ETrainIDError else
  match devices with
  | Some a => let* d1 := select d a in train_from_id d1 tid
  | None => train_from_id d tid
  end.

(** reader.py 479-480. *)
Definition train_from_index_args (d : dcoll) (i : Z) (devices : option sel_arg) : res (Z * list (string * src_data V)) :=
  let* tid := py_index (dc_tids d) i in
  train_from_id_args d tid devices.
End Args.
