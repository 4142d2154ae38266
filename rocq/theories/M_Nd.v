(** numpy arrays of any number of dimensions, and basic indexing, as used by karabo_data/stacking.py and
    karabo_data/geometry2.  Library behaviour: numpy itself is not modelled in any other respect. *)
From Verif Require Import Base.
Set Implicit Arguments.
Local Open Scope list_scope.

Section Nd.
Context {V : Type}.
(** An array: element type, shape, and the value at each index tuple. *)
Record nd := mk_nd { nd_dtype : string; nd_shape : list nat; nd_at : list nat -> V }.
Definition nd_ndim (a : nd) : nat := List.length (nd_shape a).
End Nd.
Arguments nd V : clear implicits.

Definition insert_at {A} (k : nat) (x : A) (l : list A) : list A := firstn k l ++ x :: skipn k l.
Definition remove_at {A} (k : nat) (l : list A) : list A := firstn k l ++ skipn (S k) l.

(** ** Basic indexing: integers, slices, Ellipsis *)
Inductive npix := IInt (z : Z) | ISlice (s : pyslice) | IEllipsis.
Definition full_slice : npix := ISlice (mk_slice None None None).
(** What an index does to one axis. *)
Inductive sel := Fix (k : nat) | Take (ps : list nat).

Definition is_ellipsis (i : npix) : bool := match i with IEllipsis => true | _ => false end.
(** The tuple completed to one index per axis: at most one Ellipsis stands for as many full slices as are
    missing; otherwise they are added at the end; IndexError for too many indices. *)
Fixpoint before_ellipsis (l : list npix) : list npix :=
  match l with [] => [] | IEllipsis :: _ => [] | i :: r => i :: before_ellipsis r end.
Fixpoint after_ellipsis (l : list npix) : list npix :=
  match l with [] => [] | IEllipsis :: r => r | _ :: r => after_ellipsis r end.
Definition np_expand (ndim : nat) (ixs : list npix) : res (list npix) :=
  let given := filter (fun i => negb (is_ellipsis i)) ixs in
  if (ndim <? List.length given)%nat then Err EIndexError
  else let missing := repeat full_slice (ndim - List.length given) in
  match List.length (filter is_ellipsis ixs) with
  | O => Ok (ixs ++ missing)
  | 1%nat => Ok (before_ellipsis ixs ++ missing ++ after_ellipsis ixs)
  | _ => Err EIndexError
  end.
Definition resolve1 (n : nat) (i : npix) : res sel :=
  match i with
  | IInt z => let* k := py_index (seq 0 n) z in Ok (Fix k)
  | ISlice s => let* ps := py_slice (seq 0 n) s in Ok (Take ps)
  | IEllipsis => Err EIndexError
  end.
Fixpoint resolve (shape : list nat) (ixs : list npix) : res (list sel) :=
  match shape, ixs with
  | [], [] => Ok []
  | n :: sh, i :: r => let* s := resolve1 n i in let* ss := resolve sh r in Ok (s :: ss)
  | _, _ => Err EIndexError
  end.
Fixpoint sel_shape (sels : list sel) : list nat :=
  match sels with
  | [] => []
  | Fix _ :: r => sel_shape r
  | Take ps :: r => List.length ps :: sel_shape r
  end.
Fixpoint sel_coords (sels : list sel) (idx : list nat) : list nat :=
  match sels with
  | [] => []
  | Fix k :: r => k :: sel_coords r idx
  | Take ps :: r => match idx with
                    | i :: idx' => nth i ps 0%nat :: sel_coords r idx'
                    | [] => 0%nat :: sel_coords r []
                    end
  end.
(** [a[ixs]]. *)
Definition nd_index {V} (a : nd V) (ixs : list npix) : res (nd V) :=
  let* full := np_expand (nd_ndim a) ixs in
  let* sels := resolve (nd_shape a) full in
  Ok (mk_nd (nd_dtype a) (sel_shape sels) (fun idx => nd_at a (sel_coords sels idx))).

(** An axis number of an array with [ndim] axes; AxisError (a ValueError) outside. *)
Definition norm_axis (ndim : nat) (axis : Z) : res nat :=
  let a := (if axis <? 0 then axis + Z.of_nat ndim else axis)%Z in
  if ((0 <=? a) && (a <? Z.of_nat ndim))%Z then Ok (Z.to_nat a) else Err EValueError.
(** np.moveaxis(a, 0, axis). *)
Definition moveaxis0 {V} (a : nd V) (axis : Z) : res (nd V) :=
  match nd_shape a with
  | [] => Err EValueError
  | n :: sh => let* k := norm_axis (nd_ndim a) axis in
      Ok (mk_nd (nd_dtype a) (insert_at k n sh) (fun idx => nd_at a (nth k idx 0%nat :: remove_at k idx)))
  end.
(** np.full(shape, fill, dtype): [cast] converts the fill value to the element type. *)
Definition nd_full {V} (cast : string -> V -> V) (shape : list nat) (fill : V) (dtype : string) : nd V :=
  mk_nd dtype shape (fun _ => cast dtype fill).
(** a[k] = b for an array [b] of the same element type and of the shape of a[k] (broadcasting
    of other shapes is not modelled: ValueError). *)
Definition nat_list_eqb (a b : list nat) : bool := if list_eq_dec Nat.eq_dec a b then true else false.
Definition nd_set0 {V} (a : nd V) (k : Z) (b : nd V) : res (nd V) :=
  match nd_shape a with
  | [] => Err EIndexError
  | n :: sh => let* j := py_index (seq 0 n) k in
      if nat_list_eqb (nd_shape b) sh then
        Ok (mk_nd (nd_dtype a) (nd_shape a) (fun idx => match idx with
                                                        | i :: r => if (i =? j)%nat then nd_at b r else nd_at a idx
                                                        | [] => nd_at a idx end))
      else Err EValueError
  end.
(** np.stack(arrays, axis). *)
Definition np_stack {V} (arrays : list (nd V)) (axis : Z) : res (nd V) :=
  match arrays with
  | [] => Err EValueError
  | a :: r =>
      if forallb (fun b => nat_list_eqb (nd_shape b) (nd_shape a)) r then
        let* k := norm_axis (S (nd_ndim a)) axis in
        Ok (mk_nd (nd_dtype a) (insert_at k (List.length arrays) (nd_shape a))
              (fun idx => nd_at (nth (nth k idx 0%nat) arrays a) (remove_at k idx)))
      else Err EValueError
  end.
