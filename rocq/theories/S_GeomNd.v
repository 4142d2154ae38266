(** Specification vocabulary for arrays of several frames. *)
From Verif Require Import Base M_Geom M_GeomNd.
Set Implicit Arguments.
Local Open Scope Z_scope.
Local Open Scope list_scope.

(** [k] is an index into the dimensions [shape]. *)
Definition index_in (shape k : list Z) : Prop := Forall2 (fun i n => 0 <= i < n) k shape.

(** The same shape, and the same values. *)
Definition same_array {A} (a b : ndz A) : Prop :=
  nz_shape a = nz_shape b /\ forall k, index_in (nz_shape a) k -> nz_at a k = nz_at b k.

(** Frame [k] of the data: modules, slow scan, fast scan. *)
Definition frame {A} (a : ndz A) (k : list Z) : Z -> Z -> Z -> A := fun m s f => nz_at a (k ++ [m; s; f]).
(** Frame [k] of an array of images of height H and width W given as out (with whether the type is acceptable). *)
Definition frame_out {A} (H W : Z) (out : option (ndz A * bool)) (k : list Z) : option (out_arr A) :=
  match out with None => None | Some (o, cast) => Some (mk_out (H, W) cast (fun y x => nz_at o (k ++ [y; x]))) end.
