(** Model of the representation of by_id[...] and by_index[...]
    (read_machinery.py 23-55, reader.py 59-65). *)

From Verif Require Import Base PyStr M_Cxi M_Crystfel.

Local Open Scope string_scope.
Local Open Scope Z_scope.
Local Open Scope list_scope.

(** What can stand between the brackets: an int, a slice of ints, an ellipsis or a
    list of ints (numpy arrays and other objects are not modelled). *)
Inductive item := IInt (z : Z) | ISlice (start stop step : option Z) | IEllipsis | IList (l : list Z).
Inductive value := VOne (i : item) | VTuple (l : list item).
Inductive slice_class := ById | ByIndex.

(** repr and str of an int *)
Definition int_repr (z : Z) : string := if z <? 0 then String "-" (str_of_int (- z)) else str_of_int z.

Definition opt_repr (o : option Z) : string := match o with Some z => int_repr z | None => "" end.

(** read_machinery.py 44-55: _indexing_repr *)
Definition indexing_repr (v : item) : string :=
  match v with
  | IEllipsis => "..."
  | ISlice a b c =>
      (opt_repr a ++ ":" ++ opt_repr b ++ match c with Some z => ":" ++ int_repr z | None => "" end)%string
  | IInt z => int_repr z
  | IList l => ("[" ++ py_join ", " (map int_repr l) ++ "]")%string
  end.

(** read_machinery.py 35-42: __repr__ *)
Definition slice_repr (c : slice_class) (v : value) : string :=
  let indices := match v with VOne i => [i] | VTuple l => l end in
  (match c with ById => "by_id" | ByIndex => "by_index" end ++ "[" ++ py_join ", " (map indexing_repr indices) ++ "]")%string.
