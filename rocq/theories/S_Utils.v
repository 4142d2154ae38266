(** Paths in an HDF5 file as a tree of names. *)
From Verif Require Import Base M_Utils.
Local Open Scope string_scope.
Local Open Scope list_scope.

(** Following the names of a path leads from a group to an object. *)
Inductive at_path : h5tree -> list string -> h5tree -> Prop :=
| at_here t : at_path t [] t
| at_down ms n c p t : In (n, c) ms -> at_path c p t -> at_path (HGroup ms) (n :: p) t.
(** The same through the first [m] members of each group only. *)
Inductive at_first (m : nat) : h5tree -> list string -> h5tree -> Prop :=
| first_here t : at_first m t [] t
| first_down ms n c p t : In (n, c) (firstn m ms) -> at_first m c p t -> at_first m (HGroup ms) (n :: p) t.

(** A name without line breaks which does not begin with a space. *)
Definition plain_name (n : string) : Prop :=
  ~ In "010"%char (list_ascii_of_string n) /\ match n with String c _ => c <> " "%char | EmptyString => False end.
(** A file without broken links, with at most [m] members in each group, with different and plain names. *)
Definition tidy (m : nat) (t : h5tree) : Prop :=
  forall p ms, at_path t p (HGroup ms) ->
    (List.length ms <= m)%nat /\ NoDup (map fst ms) /\ forall n c, In (n, c) ms -> plain_name n /\ c <> HBroken.
