(** Specification vocabulary: string literals of Python, and the messages of exceptions. *)
From Verif Require Import Base S_Open S_OpenRun S_Repr.
Set Implicit Arguments.
Local Open Scope string_scope.
Local Open Scope list_scope.

Definition backslash : ascii := "\".
(** [c] is the hexadecimal digit for [n]. *)
Definition hex_value (c : ascii) (n : nat) : Prop :=
  ((48 <= nat_of_ascii c <= 57) /\ n = nat_of_ascii c - 48)%nat \/ ((97 <= nat_of_ascii c <= 102) /\ n = nat_of_ascii c - 87)%nat.

(** [literal q s x]: between quotes [q], the text [x] stands for the string [s]. *)
Inductive literal (q : ascii) : string -> string -> Prop :=
| lit_end : literal q "" ""
| lit_plain c s x : c <> q -> c <> backslash -> (32 <= nat_of_ascii c)%nat -> literal q s x -> literal q (String c s) (String c x)
| lit_quote s x : literal q s x -> literal q (String q s) (String backslash (String q x))
| lit_backslash s x : literal q s x -> literal q (String backslash s) (String backslash (String backslash x))
| lit_newline s x : literal q s x -> literal q (String (ascii_of_nat 10) s) (String backslash (String "n" x))
| lit_return s x : literal q s x -> literal q (String (ascii_of_nat 13) s) (String backslash (String "r" x))
| lit_tab s x : literal q s x -> literal q (String (ascii_of_nat 9) s) (String backslash (String "t" x))
| lit_hex a b m n s x : hex_value a m -> hex_value b n -> (16 * m + n < 256)%nat -> literal q s x ->
    literal q (String (ascii_of_nat (16 * m + n)) s) (String backslash (String "x" (String a (String b x)))).

(** [t] is a string literal for [s], with quotes of either kind. *)
Definition string_literal (s t : string) : Prop :=
  exists q x, (q = "'"%char \/ q = ascii_of_nat 34) /\ literal q s x /\ t = String q (x ++ String q "")%string.

Definition names_source (s m : string) : Prop :=
  exists x, string_literal s x /\
    m = ("This data has no source named " ++ x ++ "." ++ String (ascii_of_nat 10) "" ++ "See data.all_sources for available sources.")%string.
Definition names_property (k s m : string) : Prop :=
  exists x y, string_literal k x /\ string_literal s y /\ m = ("No property " ++ x ++ " for source " ++ y)%string.
Definition names_train (t : Z) (m : string) : Prop := exists x, int_expr t x /\ m = ("Train ID " ++ x ++ " not found in this data")%string.
