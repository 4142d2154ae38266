(** Model of the table get_dataframe returns, /repo/karabo_data/reader.py lines 584-618: the rows of the columns side by side. *)
From Verif Require Import Base PyStr M_Files M_Reader M_Select M_Series.
Set Implicit Arguments.
Local Open Scope list_scope.

(** The label of a row: a train ID, or a train ID and a pulse ID. *)
Definition label : Type := (Z * option Z)%type.
Definition opt_eqb (a b : option Z) : bool :=
  match a, b with None, None => true | Some x, Some y => (x =? y)%Z | _, _ => false end.
Definition label_eqb (a b : label) : bool := (fst a =? fst b)%Z && opt_eqb (snd a) (snd b).
Definition opt_leb (a b : option Z) : bool :=
  match a, b with None, _ => true | Some x, Some y => (x <=? y)%Z | Some _, None => false end.
Definition label_leb (a b : label) : bool := (fst a <? fst b)%Z || ((fst a =? fst b)%Z && opt_leb (snd a) (snd b)).
Fixpoint labels_eqb (a b : list label) : bool :=
  match a, b with [], [] => true | x :: a, y :: b => label_eqb x y && labels_eqb a b | _, _ => false end.
Fixpoint labels_unique (l : list label) : bool :=
  match l with [] => true | x :: r => negb (existsb (label_eqb x) r) && labels_unique r end.
Fixpoint labels_dedup (l : list label) : list label :=
  match l with [] => [] | x :: r => x :: filter (fun y => negb (label_eqb y x)) (labels_dedup r) end.
Definition with_pulse (a : label) : bool := match snd a with Some _ => true | None => false end.

Section Frame.
Context {V : Type}.
Notation srow := (@srow V).

(** Row labels, and for each column its name and a value (or NaN: None) for each row. *)
Definition table : Type := (list label * list (string * list (option V)))%type.

Definition ser_index (ser : list srow) : list label := List.map fst ser.

(** pandas [Series.reindex]: unchanged if the labels are the same, else the value at each label or NaN. *)
Definition reindex (idx : list label) (ser : list srow) : list (option V) :=
  if labels_eqb (ser_index ser) idx then List.map (fun r => Some (snd r)) ser
  else List.map (fun a => option_map snd (find (fun r => label_eqb (fst r) a) ser)) idx.

(** reader.py 618: [pd.concat(series, axis=1)].  The rows are those of the columns if all have the same labels, else the
    sorted union of the labels (Index.union sorts; later versions of pandas leave the order of first appearance here).  A
    column with a repeated label cannot be aligned with others (ValueError: cannot reindex from a duplicate axis).
    A column by train with a column by train and pulse: TypeError.  (In fact a mixed table comes out or not according to the
    order of the columns and the version of pandas.) *)
Definition concat_columns (cols : list (string * list srow)) : res table :=
  match cols with
  | [] => Err EValueError
  | c :: r =>
      let idx := ser_index (snd c) in
      let all := List.concat (List.map (fun c => ser_index (snd c)) cols) in
      if forallb (fun c' => labels_eqb idx (ser_index (snd c'))) r
      then Ok (idx, List.map (fun c => (fst c, reindex idx (snd c))) cols)
      else if existsb with_pulse all && negb (forallb with_pulse all) then Err ETypeError
      else if forallb (fun c => labels_unique (ser_index (snd c))) cols
      then let idx := isort label_leb (labels_dedup all) in
           Ok (idx, List.map (fun c => (fst c, reindex idx (snd c))) cols)
      else Err EValueError
  end.

(** reader.py 584-618. *)
Definition dataframe (first : V -> V) (pulse : V -> Z) (d : dcoll V) (fields : option sel_arg) (timestamps : bool) : res table :=
  let* cols := get_dataframe first pulse d fields timestamps in concat_columns cols.
End Frame.
