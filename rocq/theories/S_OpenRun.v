(** Specification of the directories opened by open_run. *)

From Verif Require Import Base S_Open S_Stacking M_OpenRun.

Local Open Scope string_scope.
Local Open Scope Z_scope.
Local Open Scope list_scope.

(** [s] is a decimal numeral for [n], possibly with leading zeros. *)
Definition numeral (s : string) (n : Z) : Prop := s <> "" /\ all_digits s /\ decimal s = n.

Definition no_zero_first (s : string) : Prop := forall r, s <> String "0" r.

(** [s] is the numeral of [n] with exactly [w] digits or, for large numbers, with
    as many as are needed. *)
Definition padded (w : nat) (s : string) (n : Z) : Prop :=
  numeral s n /\ (w <= String.length s)%nat /\ (String.length s = w \/ no_zero_first s).

(** An argument which stands for the number [n]: the number, a numeral with or
    without zeros in front (no more than are needed to fill [w] digits), or the
    padded numeral with the letter [c] in front. *)
Inductive stands_for (c : ascii) (w : nat) (n : Z) : number_arg -> Prop :=
| sf_int : stands_for c w n (ArgInt n)
| sf_numeral : forall s, numeral s n -> ((String.length s <= w)%nat \/ no_zero_first s) -> stands_for c w n (ArgStr s)
| sf_name : forall s, padded w s n -> stands_for c w n (ArgStr (String c s)).
