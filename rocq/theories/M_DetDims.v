(** The dimensions of detector arrays, with the values along the axes of a frame: karabo_data/components.py 17-40 and 305-331.
    M_Components and M_Grid treat a frame as one value; here a frame is the array of its pixels. *)
From Verif Require Import Base M_Files M_Reader M_Nd M_Cxi M_Components M_Grid.
Set Implicit Arguments.
Local Open Scope string_scope.
Local Open Scope list_scope.

(** ** xarray (library behaviour): arrays with named dimensions *)
Record xarr (B : Type) := mk_xa { xa_dims : list string; xa_shape : list nat; xa_at : list nat -> B }.
Arguments mk_xa {B} _ _ _. Arguments xa_dims {B} _. Arguments xa_shape {B} _. Arguments xa_at {B} _ _.

(** The number given for a dimension. *)
Definition by_name (dims : list string) (l : list nat) (d : string) : nat :=
  match dict_get d (combine dims l) with Some n => n | None => 0%nat end.

Section D.
Context {A : Type}.

(** components.py 19-20. *)
Definition drop_spurious (a : nd A) : nd A :=
  match nd_shape a with
  | n :: 1%nat :: r =>
      mk_nd (nd_dtype a) (n :: r)
        (fun idx => match idx with i :: q => nd_at a (i :: 0%nat :: q) | [] => nd_at a [] end)
  | _ => a
  end.
(** components.py 25-33. *)
Definition guess_dims (ndim : nat) : list string :=
  match ndim with
  | 4%nat => ["train_pulse"; "data_gain"; "slow_scan"; "fast_scan"]
  | 3%nat => ["train_pulse"; "slow_scan"; "fast_scan"]
  | _ => ["train_pulse"]
  end.
(** components.py 35: one name for each dimension, one label for each row (ValueError). *)
Definition data_array (dims : list string) (labels : list (Z * Z)) (a : nd A) : res (xarr A) :=
  if negb (Nat.eqb (List.length dims) (nd_ndim a)) then Err EValueError
  else if negb (Nat.eqb (List.length labels) (by_name dims (nd_shape a) "train_pulse")) then Err EValueError
  else Ok (mk_xa dims (nd_shape a) (nd_at a)).

(** The position of a label. *)
Fixpoint label_pos (t p : Z) (labels : list (Z * Z)) : option nat :=
  match labels with
  | [] => None
  | (t', p') :: r => if ((t' =? t) && (p' =? p))%Z then Some 0%nat else option_map S (label_pos t p r)
  end.
(** components.py 40: [arr.unstack('train_pulse')]: the new dimensions are the last; ValueError for repeated labels. *)
Definition unstack_nd (labels : list (Z * Z)) (a : xarr A) : res (xarr (option A)) :=
  if negb (pairs_unique labels) then Err EValueError else
  let ts := zsort_set (List.map fst labels) in
  let ps := zsort_set (List.map snd labels) in
  let others := filter (fun d => negb (String.eqb d "train_pulse")) (xa_dims a) in
  let dims := others ++ ["train"; "pulse"] in
  Ok (mk_xa dims
        (List.map (by_name (xa_dims a) (xa_shape a)) others ++ [List.length ts; List.length ps])
        (fun idx =>
           match nth_error ts (by_name dims idx "train"), nth_error ps (by_name dims idx "pulse") with
           | Some t, Some p =>
               match label_pos t p labels with
               | Some i => Some (xa_at a (List.map (fun d => if String.eqb d "train_pulse" then i else by_name dims idx d) (xa_dims a)))
               | None => None
               end
           | _, _ => None
           end)).
(** [.transpose]: ValueError unless the names are those of the array. *)
Definition transpose_nd {B} (order : list string) (a : xarr B) : res (xarr B) :=
  if negb (Nat.eqb (List.length order) (List.length (xa_dims a)) && forallb (fun d => str_in d order) (xa_dims a)) then Err EValueError
  else Ok (mk_xa order (List.map (by_name (xa_dims a) (xa_shape a)) order)
             (fun idx => xa_at a (List.map (by_name order idx) (xa_dims a)))).
(** components.py 17-40: [_guess_axes]. *)
Definition guess_axes_nd (data : nd A) (labels : list (Z * Z)) : res (xarr (option A)) :=
  let data := drop_spurious data in
  let dims := guess_dims (nd_ndim data) in
  let* arr := data_array dims labels data in
  let* arr := unstack_nd labels arr in
  transpose_nd (["train"; "pulse"] ++ List.tl dims) arr.

(** ** The array of a detector *)
(** A row of a dataset, as the value at each index tuple; [v[0]]. *)
Definition first_pixels (v : list nat -> A) : list nat -> A := fun idx => v (0%nat :: idx).
(** components.py 331: [xarray.concat] along the new dimension module, which is the first; the others keep their order.
    For data with one value per train they are those of get_array (reader.py 705-707). *)
Definition det_xarray (g : det_grid (list nat -> A)) : xarr (option A) :=
  match g with
  | PulseGrid g =>
      mk_xa (["module"; "train"; "pulse"] ++ List.tl (guess_dims (S (List.length (dg_item g)))))
        ([List.length (dg_modules g); List.length (dg_trains g); List.length (dg_pulses g)] ++ List.map Z.to_nat (dg_item g))
        (fun idx => match idx with
                    | i :: j :: l :: q =>
                        match nth_error (nth j (nth i (dg_cells g) []) []) l with Some (Some v) => Some (v q) | _ => None end
                    | _ => None
                    end)
  | TrainGrid g =>
      mk_xa (["module"; "trainId"] ++ List.map (fun i => "dim_" ++ str_of_int (Z.of_nat i))%string (seq 0 (List.length (tg_item g))))
        ([List.length (tg_modules g); List.length (tg_trains g)] ++ List.map Z.to_nat (tg_item g))
        (fun idx => match idx with
                    | i :: j :: q => match nth_error (nth i (tg_cells g) []) j with Some (Some v) => Some (v q) | _ => None end
                    | _ => None
                    end)
  end.
(** components.py 305-331: [get_array]. *)
Definition det_get_xarray (pulse : (list nat -> A) -> Z) (m : mpx (list nat -> A)) (key : string) (pulses : pulse_arg)
  : res (xarr (option A)) :=
  let* g := det_get_grid first_pixels pulse m key pulses in Ok (det_xarray g).
End D.
