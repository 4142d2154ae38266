(** Words for get_dataframe. *)
From Verif Require Import Base PyStr M_Files M_Reader M_Select S_Reader S_Avail S_Glob.
Set Implicit Arguments.
Local Open Scope string_scope.
Local Open Scope list_scope.

(** The name of a column: source/key, without ".value" at the end. *)
Definition column_name (s k name : string) : Prop :=
  (s ++ "/" ++ k = name ++ ".value")%string \/ (name = (s ++ "/" ++ k)%string /\ ~ ends ".value" name).

Section S.
Context {V : Type}.
(** The fields shown: those which can be read, timestamps only on demand. *)
Definition shown (d : dcoll V) (timestamps : bool) (s k : string) : Prop :=
  available d s k /\ (timestamps = true \/ ~ ends ".timestamp" k).
(** The collection meant by the argument [fields]. *)
Definition chosen (d : dcoll V) (fields : option sel_arg) (d' : dcoll V) : Prop :=
  match fields with None => d' = d | Some a => select d a = Ok d' end.
End S.
