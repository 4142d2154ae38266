(** Words for the table get_dataframe returns: row labels, cells, order. *)
From Verif Require Import Base M_Files M_Reader M_Series.
Set Implicit Arguments.
Local Open Scope list_scope.

Definition row_label : Type := (Z * option Z)%type.
Definition row_label_dec : forall a b : row_label, {a = b} + {a <> b}.
Proof. repeat decide equality. Defined.

(** By train ID, then by pulse ID. *)
Definition label_before (a b : row_label) : Prop :=
  (fst a < fst b)%Z \/ (fst a = fst b /\ match snd a, snd b with None, Some _ => True | Some p, Some q => (p < q)%Z | _, _ => False end).

Section S.
Context {V : Type}.
(** The values with label [a], in order. *)
Definition at_label {A} (a : row_label) (l : list (row_label * A)) : list A :=
  List.map snd (filter (fun r => if row_label_dec (fst r) a then true else false) l).
(** The labels of a series. *)
Definition labels_of (ser : list (row_label * V)) : list row_label := List.map fst ser.
(** The cells of one column, on rows [idx], show the series: the same name, a cell for each row; at each label the values of the
    series with that label, or nothing (NaN) if it has none. *)
Definition shows (idx : list row_label) (c : string * list (row_label * V)) (tc : string * list (option V)) : Prop :=
  fst tc = fst c /\ List.length (snd tc) = List.length idx /\
  forall a, In a idx ->
    (In a (labels_of (snd c)) /\ at_label a (combine idx (snd tc)) = List.map Some (at_label a (snd c))) \/
    (~ In a (labels_of (snd c)) /\ Forall (eq None) (at_label a (combine idx (snd tc)))).
(** All columns by train, or all by train and pulse. *)
Definition same_kind (cols : list (string * list (row_label * V))) : Prop :=
  (forall c a, In c cols -> In a (labels_of (snd c)) -> snd a = None) \/
  (forall c a, In c cols -> In a (labels_of (snd c)) -> snd a <> None).
End S.
