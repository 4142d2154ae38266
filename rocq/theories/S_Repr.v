(** The Python expressions for by_id[...] and by_index[...]. *)
From Verif Require Import Base S_Open S_OpenRun M_Repr.
Local Open Scope string_scope.
Local Open Scope Z_scope.
Local Open Scope list_scope.

(** An int: a numeral without zeros in front, or a minus sign and a numeral. *)
Inductive int_expr : Z -> string -> Prop :=
| ie_plain n s : numeral s n -> no_zero_first s \/ s = "0" -> int_expr n s
| ie_minus n s : numeral s n -> no_zero_first s -> int_expr (- n) (String "-" s).
(** What stands between the colons of a slice: an int or nothing. *)
Inductive bound_expr : option Z -> string -> Prop :=
| be_none : bound_expr None ""
| be_int n s : int_expr n s -> bound_expr (Some n) s.
(** Several things, with commas between them. *)
Inductive series_expr {A} (expr : A -> string -> Prop) : list A -> string -> Prop :=
| se_one a s : expr a s -> series_expr expr [a] s
| se_more a s l r : expr a s -> series_expr expr l r -> series_expr expr (a :: l) (s ++ ", " ++ r)%string.
Inductive item_expr : item -> string -> Prop :=
| xe_int n s : int_expr n s -> item_expr (IInt n) s
| xe_slice a b sa sb : bound_expr a sa -> bound_expr b sb -> item_expr (ISlice a b None) (sa ++ ":" ++ sb)%string
| xe_step a b c sa sb sc : bound_expr a sa -> bound_expr b sb -> bound_expr c sc -> item_expr (ISlice a b c) (sa ++ ":" ++ sb ++ ":" ++ sc)%string
| xe_ellipsis : item_expr IEllipsis "..."
| xe_empty : item_expr (IList []) "[]"
| xe_list l s : series_expr int_expr l s -> item_expr (IList l) ("[" ++ s ++ "]")%string.
Inductive value_expr : value -> string -> Prop :=
| ve_one i s : item_expr i s -> value_expr (VOne i) s
| ve_tuple i j l s : series_expr item_expr (i :: j :: l) s -> value_expr (VTuple (i :: j :: l)) s.
Inductive slice_expr : slice_class -> value -> string -> Prop :=
| sx_id v s : value_expr v s -> slice_expr ById v ("by_id[" ++ s ++ "]")%string
| sx_index v s : value_expr v s -> slice_expr ByIndex v ("by_index[" ++ s ++ "]")%string.
