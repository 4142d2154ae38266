(** Words for the layout of a CXI file. *)
From Verif Require Import Base PyStr M_Cxi M_CxiFile.
Set Implicit Arguments.
Local Open Scope string_scope.
Local Open Scope list_scope.

Section S.
Context {V : Type}.
Variable root : node V.
(** [leads n path o]: following [path] from [n], soft links included, one gets to [o]. *)
Inductive leads : node V -> list string -> node V -> Prop :=
| leads_here : forall o, (forall t, o <> SoftLink t) -> leads o [] o
| leads_member : forall ms x sub rest o, dict_get x ms = Some sub -> leads sub rest o -> leads (Group ms) (x :: rest) o
| leads_link : forall t rest o, leads root (t ++ rest) o -> leads (SoftLink t) rest o.
End S.
(** The object at an absolute path of a file. *)
Definition object {V} (file : node V) (path : list string) (o : node V) : Prop := leads file file path o.

(** An attribute 'axes': names separated by colons. *)
Definition axes_names (a : string) (names : list string) : Prop :=
  names <> [] /\ Forall (fun n => ~ In ":"%char (list_ascii_of_string n)) names /\
  a = List.fold_right (fun n r => match r with "" => n | _ => (n ++ ":" ++ r)%string end) "" names.
