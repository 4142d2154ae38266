(** Model of the grids made by xarray in the get_array method of detectors: /repo/karabo_data/components.py 17-40 (unstack),
    289-303 (concatenation along the trains of one module) and 305-331 (concatenation of the modules).
    NaN is None.  The values along the axes of a frame are inside a V. *)
From Verif Require Import Base PyStr M_Files M_Machinery M_Reader M_Glob M_Select M_Series M_Stacking M_Components.
Set Implicit Arguments.
Local Open Scope string_scope.
Local Open Scope list_scope.

Section G.
Context {V : Type}.
Context (first : V -> V) (pulse : V -> Z).

(** ** xarray *)
(** An array with train and pulse axes: the pulse coordinates, and for each train coordinate the values for the pulses. *)
Record grid := mk_grid { gr_item : list Z; gr_pulses : list Z; gr_rows : list (Z * list (option V)) }.
Definition gr_trains (g : grid) : list Z := List.map fst (gr_rows g).

(** components.py 40: [.unstack('train_pulse')]: the levels of the MultiIndex are the sorted distinct labels; positions
    without a frame are NaN. *)
Definition find_frame (t p : Z) (l : list (Z * Z * V)) : option V :=
  match find (fun x => (fst (fst x) =? t) && (snd (fst x) =? p))%Z l with Some x => Some (snd x) | None => None end.
Definition unstack (a : arr V) : grid :=
  let ps := zsort_set (List.map (fun x => snd (fst x)) (ar_frames a)) in
  let ts := zsort_set (List.map frame_train (ar_frames a)) in
  mk_grid (ar_item a) ps (List.map (fun t => (t, List.map (fun p => find_frame t p (ar_frames a)) ps)) ts).

(** xarray.align(join='outer') for one axis: unchanged if all are equal, else the sorted union (pandas: indexes with
    repeated labels cannot be aligned, ValueError). *)
Definition join_axis (l : list (list Z)) : res (list Z) :=
  match l with
  | [] => Ok []
  | a :: r =>
      if forallb (zlist_eqb a) r then Ok a
      else if forallb z_unique l then Ok (zsort_set (List.concat l)) else Err EValueError
  end.
(** The values [vals] with labels [old], on the axis [new]; [fill] where there is none. *)
Definition lookup {A} (x : Z) (l : list (Z * A)) (fill : A) : A :=
  match find (fun q => (fst q =? x)%Z) l with Some q => snd q | None => fill end.
Definition align {A} (fill : A) (old new : list Z) (vals : list A) : list A :=
  if zlist_eqb old new then vals else List.map (fun x => lookup x (combine old vals) fill) new.

(** ** One module *)
(** components.py 289: [a.size > 0]. *)
Definition grid_nonempty (g : grid) : bool :=
  negb (Nat.eqb (List.length (gr_rows g)) 0) && negb (Nat.eqb (List.length (gr_pulses g)) 0) && negb (z_in 0 (gr_item g)).
(** components.py 302: [a.coords['train'][0]]. *)
Definition grid_first (g : grid) : Z := match gr_rows g with r :: _ => fst r | [] => 0%Z end.
(** components.py 289-303. *)
Definition concat_grids (l : list grid) : res grid :=
  match filter grid_nonempty l with
  | [] => match l with g :: _ => Ok g | [] => Err EException end
  | a :: r =>
      let* ps := join_axis (List.map gr_pulses (sort_key grid_first (a :: r))) in
      if forallb (fun b => zlist_eqb (gr_item a) (gr_item b)) r
      then Ok (mk_grid (gr_item a) ps
                 (flat_map (fun g => List.map (fun row => (fst row, align None (gr_pulses g) ps (snd row))) (gr_rows g))
                           (sort_key grid_first (a :: r))))
      else Err EValueError
  end.
(** components.py 225-303: [_get_module_pulse_data]. *)
Definition get_module_grid (m : mpx V) (source key : string) (ps : psel) : res grid :=
  let* l := mapM (file_parts first pulse m source key ps) (source_files (dc_files (mx_data m)) source) in
  concat_grids (List.map unstack (List.concat l)).

(** ** All modules *)
(** Axes module, train, pulse. *)
Record dgrid := mk_dgrid {
  dg_item : list Z; dg_modules : list Z; dg_trains : list Z; dg_pulses : list Z;
  dg_cells : list (list (list (option V))) }.
(** Axes module, trainId. *)
Record tgrid := mk_tgrid {
  tg_item : list Z; tg_modules : list Z; tg_trains : list Z; tg_cells : list (list (option V)) }.
Inductive det_grid := PulseGrid (g : dgrid) | TrainGrid (g : tgrid).

Definition first_item {A} (item : A -> list Z) (l : list A) : list Z := match l with a :: _ => item a | [] => [] end.
(** components.py 331: [xarray.concat(arrays, pd.Index(modnos, name='module'))]: the axes of the modules are aligned. *)
Definition concat_modules (l : list (Z * grid)) : res dgrid :=
  let* ts := join_axis (List.map (fun p => gr_trains (snd p)) l) in
  let* ps := join_axis (List.map (fun p => gr_pulses (snd p)) l) in
  if same_items (fun p => gr_item (snd p)) l then
    Ok (mk_dgrid (first_item (fun p => gr_item (snd p)) l) (List.map fst l) ts ps
          (List.map (fun p => let g := snd p in
             align (List.map (fun _ => None) ps) (gr_trains g) ts
                   (List.map (fun row => align None (gr_pulses g) ps (snd row)) (gr_rows g))) l))
  else Err EValueError.
(** The same for arrays by train.  An array without rows has no labels (reader.py 709-712), and xarray does not align it with
    arrays which have some (ValueError). *)
Definition no_rows (p : Z * larray V) : bool := match la_labels (snd p) with [] => true | _ => false end.
Definition concat_train_modules (l : list (Z * larray V)) : res tgrid :=
  let* ts := join_axis (List.map (fun p => la_labels (snd p)) l) in
  if existsb no_rows l && negb (forallb no_rows l) then Err EValueError else
  if same_items (fun p => la_item (snd p)) l then
    Ok (mk_tgrid (first_item (fun p => la_item (snd p)) l) (List.map fst l) ts
          (List.map (fun p => align None (la_labels (snd p)) ts (List.map Some (la_rows (snd p)))) l))
  else Err EValueError.
(** components.py 305-331: [get_array]. *)
Definition det_get_grid (m : mpx V) (key : string) (pulses : pulse_arg) : res det_grid :=
  let* ps := check_pulse_selection pulses in
  if starts_with "image." key then
    let* l := mapM (fun sm => let* g := get_module_grid m (fst sm) key ps in Ok (snd sm, g)) (sorted_modules m) in
    let* g := concat_modules l in Ok (PulseGrid g)
  else
    let* l := mapM (fun sm => let* a := get_array (mx_data m) (fst sm) key in Ok (snd sm, a)) (sorted_modules m) in
    let* g := concat_train_modules l in Ok (TrainGrid g).
End G.
Arguments grid : clear implicits.
Arguments dgrid : clear implicits.
Arguments tgrid : clear implicits.
Arguments det_grid : clear implicits.
