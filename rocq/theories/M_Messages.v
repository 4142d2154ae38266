(** The messages of the exceptions of karabo_data (karabo_data/exceptions.py) and where they are raised. *)
From Verif Require Import Base PyStr M_Files M_Reader M_Repr M_InfoText M_LsText.
Set Implicit Arguments.
Local Open Scope string_scope.
Local Open Scope list_scope.

(** exceptions.py 4-12 *)
Definition source_error_str (source : string) : string :=
  ("This data has no source named " ++ str_repr source ++ "." ++ newline ++ "See data.all_sources for available sources.")%string.
(** exceptions.py 15-21 *)
Definition property_error_str (prop source : string) : string := ("No property " ++ str_repr prop ++ " for source " ++ str_repr source)%string.
(** exceptions.py 24-29; the train ID is an int. *)
Definition train_error_str (tid : Z) : string := ("Train ID " ++ int_repr tid ++ " not found in this data")%string.

Section Messages.
Context {V : Type}.
Notation dcoll := (dcoll V).

(** reader.py 303-307, with the text of the two exceptions raised there. *)
Definition check_field_msg (d : dcoll) (source key : string) : res (option string) :=
  if negb (str_in source (dc_sources d)) then Ok (Some (source_error_str source)) else
  let* ks := keys_for_source d source in
  Ok (if str_in key ks then None else Some (property_error_str key source)).

(** reader.py 418-419 *)
Definition train_msg (d : dcoll) (tid : Z) : option string :=
  if negb (z_in tid (dc_tids d)) then Some (train_error_str tid) else None.
End Messages.
