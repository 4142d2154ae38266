(** get_array with a region of interest and names of dimensions (karabo_data/reader.py 620-714). *)

From Verif Require Import Base M_Files M_Reader M_Nd M_Cxi.
Set Implicit Arguments.
Local Open Scope string_scope.
Local Open Scope list_scope.

(** ** Selections of h5py (library behaviour: h5py/_hl/selections.py)
    Only integers, slices and Ellipsis; lists, masks and None are not modelled. *)

(** h5py [_expand_ellipsis]. *)
Definition h5_expand (rank : nat) (args : list npix) : res (list npix) :=
  let n_el := List.length (filter is_ellipsis args) in
  if (1 <? n_el)%nat then Err EValueError else
  let args := if (Nat.eqb n_el 0 && negb (Nat.eqb (List.length args) rank))%bool then args ++ [IEllipsis] else args in
  let final := flat_map (fun i => match i with
                                  | IEllipsis => repeat full_slice (rank + 1 - List.length args)
                                  | _ => [i] end) args in
  if (rank <? List.length final)%nat then Err ETypeError else Ok final.

(** h5py [_translate_int] and [_translate_slice]: (start, count, step) of one axis of length [n], as
    the list of the positions. *)
Definition h5_axis (n : nat) (i : npix) : res sel :=
  match i with
  | IInt z =>
      let z := (if z <? 0 then z + Z.of_nat n else z)%Z in
      if ((0 <=? z) && (z <? Z.of_nat n))%Z then Ok (Fix (Z.to_nat z)) else Err EValueError
  | ISlice s =>
      let* p := slice_indices s (Z.of_nat n) in
      let '(start, stop, step) := p in
      if (step <? 1)%Z then Err EValueError
      else if (stop <? start)%Z then Ok (Take [])
      else Ok (Take (map (fun j => Z.to_nat (start + Z.of_nat j * step))
                         (seq 0 (Z.to_nat (1 + (stop - start - 1) / step)))))
  | IEllipsis => Err ETypeError
  end.
Fixpoint h5_axes (shape : list nat) (args : list npix) : res (list sel) :=
  match shape, args with
  | n :: sh, i :: r => let* s := h5_axis n i in let* ss := h5_axes sh r in Ok (s :: ss)
  | _, _ => Ok []
  end.

(** The [roi] argument: by_index[i], by_index[i, j, ...], or something which is not a by_index. *)
Inductive roi_arg := ByOne (i : npix) | ByTuple (l : list npix) | NotByIndex.
(** reader.py 63-65, 654-659; read_machinery.py 23-33. *)
Definition roi_tuple (r : roi_arg) : res (list npix) :=
  match r with NotByIndex => Err ETypeError | ByOne i => Ok [i] | ByTuple l => Ok l end.

(** The labelled array which is returned: names of the dimensions, labels of the first, and the data. *)
Record rarray (E : Type) := mk_ra { ra_dims : list string; ra_labels : list Z; ra_data : nd E }.
Arguments mk_ra {E} _ _ _.

Section Roi.
Context {V E : Type}.
(** The element at an index tuple of a row; the content of np.empty. *)
Variable elt : V -> list nat -> E.
Variable junk : E.

(** reader.py 693-702: labels and selected part of the rows of one chunk.  The selection along the
    first axis is that of [read_chunk].  h5py gives the selected part the shape [sel_shape]; a shape
    other than that of the destination is refused (its broadcasting of axes of length 1 is
    modelled only for the first axis).  A selection without elements is read without complaint:
    so in recent versions of h5py; old ones refuse it. *)
Definition read_chunk_roi (source key : string) (roi : list npix) (roi_shape : list nat) (c : chunk V)
  : res (list Z * list (list nat -> E)) :=
  let n := zsum (ch_counts c) in
  if (n =? 0)%Z then Ok ([], []) else
  let* ds := ch_dataset source key c in
  let item := map Z.to_nat (ds_item ds) in
  let* args := h5_expand (List.length item) roi in
  let* sels := h5_axes item args in
  if negb (nat_list_eqb (sel_shape sels) roi_shape) then Err ETypeError else
  let labels := expand_trainids (ch_counts c) (ch_tids c) in
  let rows := map (fun v idx => elt v (sel_coords sels idx)) (ds_slice ds (ch_first c) (ch_first c + n)) in
  if (Z.of_nat (List.length rows) =? n)%Z then Ok (labels, rows)
  else match rows with
       | [r] => Ok (labels, repeat r (Z.to_nat n))
       | _ => Err ETypeError
       end.

(** The array made of the parts: element [i :: idx] is element [idx] of row [i]. *)
Definition stack_rows (dtype : string) (roi_shape : list nat) (rows : list (list nat -> E)) : nd E :=
  mk_nd dtype (List.length rows :: roi_shape)
    (fun idx => match idx with
                | i :: r => match nth_error rows i with Some f => f r | None => junk end
                | [] => junk end).

(** reader.py 620-714: [get_array].  xarray refuses a number of names other than the number of
    dimensions (ValueError).  As in M_Reader.get_array the labels of an array without rows are
    the empty list. *)
Definition get_array_roi (d : dcoll V) (source key : string) (extra_dims : option (list string)) (r : roi_arg)
  : res (rarray E) :=
  let* _ := check_field d source key in
  let* roi := roi_tuple r in
  let* chunks := sorted_chunks d source key in
  let* dss := mapM (ch_dataset source key) chunks in
  let* ty := common_type dss in
  (* 686-687: the shape of np.zeros((0,) + shape)[(slice(None),) + roi], without its first axis *)
  let shape0 := 0%nat :: map Z.to_nat (snd ty) in
  let* full := np_expand (List.length shape0) (full_slice :: roi) in
  let* sels := resolve shape0 full in
  let roi_shape := List.tl (sel_shape sels) in
  let* parts := mapM (read_chunk_roi source key roi roi_shape) chunks in
  let labels := flat_map fst parts in
  let rows := flat_map snd parts in
  let res := stack_rows (fst ty) roi_shape rows in
  let extra := match extra_dims with
               | None => map (fun i => ("dim_" ++ str_of_int (Z.of_nat i))%string) (seq 0 (nd_ndim res - 1))
               | Some l => l end in
  let dims := "trainId" :: extra in
  if negb (Nat.eqb (List.length dims) (nd_ndim res)) then Err EValueError
  else if Nat.eqb (List.length labels) (List.length rows) then Ok (mk_ra dims labels res)
  else Err EValueError.
End Roi.
