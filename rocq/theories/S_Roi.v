(** Specification for get_array with a region of interest. *)

From Verif Require Import Base M_Reader M_Nd.
Set Implicit Arguments.
Local Open Scope list_scope.

(** An index tuple inside a shape. *)
Definition in_shape (idx shape : list nat) : Prop := Forall2 lt idx shape.

(** The labelled array of the whole field as an array with one more dimension than its rows; [elt]
    gives the elements of a row. *)
Definition as_nd {V E} (elt : V -> list nat -> E) (junk : E) (a : larray V) : nd E :=
  mk_nd (la_dtype a) (List.length (la_rows a) :: map Z.to_nat (la_item a))
    (fun idx => match idx with
                | i :: r => match nth_error (la_rows a) i with Some v => elt v r | None => junk end
                | [] => junk end).

(** Same element type, shape and elements. *)
Definition nd_same {E} (a b : nd E) : Prop :=
  nd_dtype a = nd_dtype b /\ nd_shape a = nd_shape b /\
  forall idx, in_shape idx (nd_shape a) -> nd_at a idx = nd_at b idx.

(** Slices in the expression go forwards. *)
Definition forwards (i : npix) : Prop :=
  match i with ISlice (mk_slice _ _ (Some k)) => (1 <= k)%Z | _ => True end.
