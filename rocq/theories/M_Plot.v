(** Plots of detector geometry: inspect, compare and plot_data_fast of
    geometry2/__init__.py.

    A plot is modelled by what is drawn on the matplotlib axes, in the units of
    the axes: colours, line widths, fonts, the legend and the colour bar are
    left out.  Numbers are exact rationals as in M_Geom. *)
From Coq Require Import QArith Qround Qabs.
From Verif Require Import Base M_Cxi M_Geom.
Local Open Scope string_scope.
Local Open Scope Z_scope.
Local Open Scope list_scope.

Definition pt := (Q * Q)%type.
(** [v[:2] * scale]: the x and y of a vector, scaled. *)
Definition xy (scale : Q) (v : vec) : pt := (vx v * scale, vy v * scale)%Q.

(** 148-155: _get_plot_scale_factor *)
Definition plot_scale (d : detector) (units : string) : res Q :=
  if String.eqb units "m" then Ok 1%Q
  else if String.eqb units "px" then Ok (1 / pixel_size d)%Q
  else Err EValueError.

(** 207-208, 1006-1007 *)
Definition axis_label (units : string) : string := if String.eqb units "m" then "metres" else "pixels".

(** What inspect draws. *)
Record axes := mk_axes {
  ax_polygons : list (list pt);
  ax_markers : list pt;                 (* scatter: first pixels *)
  ax_segments : list (pt * pt);         (* first rows *)
  ax_cross : list (pt * pt);            (* hlines and vlines *)
  ax_texts : list (pt * string);
  ax_x_inverted : bool;
  ax_label : string;
  ax_title : string
}.

(** 133, 1032: _draw_first_px_on_tile, counted from 1 *)
Definition first_px_tile (d : detector) : Z := match d with LPD => 8 | _ => 1 end.

(** 179-184: ends of the first row of a tile *)
Definition first_row (scale : Q) (t : tile) : pt * pt :=
  let c1 := t_corner t in
  (xy scale c1, xy scale (vadd c1 (vmul (inject_Z (t_fs_px t)) (t_fs t)))).

(** 157-210: DetectorGeometryBase.inspect.  [first_rows[:, 0, 0]] of an array
    made from an empty list is an IndexError. *)
Definition base_inspect (d : detector) (g : geometry) (units : string) (frontview : bool) : res axes :=
  let* scale := plot_scale d units in
  let rects := map (fun t => map (xy scale) (tile_corners t)) (List.concat g) in
  let rows := flat_map (fun md => flat_map (fun it => if fst it + 1 =? first_px_tile d then [first_row scale (snd it)] else []) (zenum md)) g in
  match rows with
  | [] => Err EIndexError
  | _ =>
      let c := ((2 # 100) * scale)%Q in
      Ok (mk_axes rects (map fst rows) rows [(((- c)%Q, 0%Q), (c, 0%Q)); ((0%Q, (- c)%Q), (0%Q, c))] []
            frontview (axis_label units) "")
  end.

(** The tile whose centre carries the name of the module: 683, 1206, 1431; and the
    tiles which are numbered: 688, 1211, 1436 (indexes from 0). *)
Definition name_tile (d : detector) : Z := match d with AGIPD => 4 | _ => 0 end.
Definition number_tiles (d : detector) : list Z :=
  match d with AGIPD => [0; 7] | LPD => [7; 8; 15] | DSSC => [1] end.
(** 694, 1217, 1442 *)
Definition plot_title (d : detector) (filename : string) : string :=
  (match d with AGIPD => "AGIPD-1M" | LPD => "LPD-1M" | DSSC => "DSSC" end ++ " detector geometry (" ++ filename ++ ")")%string.

(** [module[i].centre() * scale], for a fixed i that is not negative *)
Definition centre_of (scale : Q) (md : list tile) (i : Z) : res pt :=
  match nth_error md (Z.to_nat i) with
  | Some t => Ok (xy scale (tile_centre t))
  | None => Err EIndexError
  end.

(** 680-692, 1203-1215, 1428-1440: the labels of one module *)
Definition module_texts (d : detector) (scale : Q) (im : Z * list tile) : res (list (pt * string)) :=
  let '(ch, md) := im in
  let* c := centre_of scale md (name_tile d) in
  let* ts := mapM (fun t => let* c := centre_of scale md t in Ok (c, ("T" ++ str_of_int (t + 1))%string)) (number_tiles d) in
  Ok ((c, ("Q" ++ str_of_int (ch / 4 + 1) ++ "M" ++ str_of_int (ch mod 4 + 1))%string) :: ts).

(** 664-695, 1187-1218, 1412-1443: inspect of the three detectors *)
Definition inspect (d : detector) (g : geometry) (filename units : string) (frontview : bool) : res axes :=
  let* ax := base_inspect d g units frontview in
  let* scale := plot_scale d units in
  let* texts := mapM (module_texts d scale) (zenum g) in
  Ok (mk_axes (ax_polygons ax) (ax_markers ax) (ax_segments ax) (ax_cross ax) (List.concat texts)
        (ax_x_inverted ax) (ax_label ax) (plot_title d filename)).

(** ** compare *)

(** An arrow: start, and what is drawn as its direction and length. *)
Record arrow := mk_arrow { ar_from : pt; ar_by : pt }.

Record comparison := mk_cmp {
  cm_polygons : list (list pt);
  cm_arrows : list arrow;
  cm_texts : list (pt * string);
  cm_xlim : Q * Q;
  cm_ylim : Q * Q
}.

(** 737-743, 745-750: an arrow for one corner; none if it did not move *)
Definition corner_arrow (scale : Q) (c1 c2 : pt) : list arrow :=
  let dx := (fst c2 - fst c1)%Q in
  let dy := (snd c2 - snd c1)%Q in
  if Qeq_bool dx 0 && Qeq_bool dy 0 then [] else [mk_arrow c1 (scale * dx, scale * dy)%Q].

(** 722-750: one tile *)
Definition compare_tile (other : geometry) (scale : Q) (p : Z) (ia : Z * tile) : res (list (pt * string) * list arrow) :=
  let '(a, t) := ia in
  let texts := if (a =? 0) || (a =? 7) then [(xy 1 (tile_centre t), str_of_int a)]
               else if a =? 4 then [(xy 1 (tile_centre t), ("p" ++ str_of_int p)%string)] else [] in
  match nth_error other (Z.to_nat p) with
  | None => Err EIndexError
  | Some md =>
      match nth_error md (Z.to_nat a) with
      | None => Err EIndexError
      | Some t2 =>
          let opp x := xy 1 (nth 2 (tile_corners x) vzero) in
          Ok (texts, corner_arrow scale (xy 1 (t_corner t)) (xy 1 (t_corner t2)) ++ corner_arrow scale (opp t) (opp t2))
      end
  end.

(** 698-772: AGIPD_1MGeometry.compare.  The corner points of matplotlib's FancyArrow
    of width 5 and head length 4 or 5 are a parameter.  np.concatenate of nothing
    is a ValueError. *)
Definition compare (arrow_xy : arrow -> list pt) (g other : geometry) (scale : Q) : res comparison :=
  let* parts := mapM (fun im => mapM (compare_tile other scale (fst im)) (zenum (snd im))) (zenum g) in
  let parts := List.concat parts in
  let rects := map (fun t => map (xy 1) (tile_corners t)) (List.concat g) in
  let arrows := flat_map snd parts in
  match flat_map arrow_xy arrows ++ List.concat rects with
  | [] => Err EValueError
  | c :: cs =>
      let lo f := fold_left qmin (map f cs) (f c) in
      let hi f := fold_left qmax (map f cs) (f c) in
      Ok (mk_cmp rects arrows (flat_map fst parts)
            (lo fst - 20, hi fst + 20)%Q (lo snd - 40, hi snd + 20)%Q)
  end.

(** ** plot_data_fast *)

(** What plot_data draws: an image of size (height, width) and how imshow places
    it: extent (left, right, bottom, top) and whether row 0 is at the bottom
    (origin='lower'). *)
Record dataplot (A : Type) := mk_dp {
  dp_image : image A;
  dp_size : Z * Z;
  dp_extent : Q * Q * Q * Q;
  dp_lower : bool;
  dp_cross : list (pt * pt);
  dp_x_inverted : bool;
  dp_label : string;
  dp_aspect : option Q
}.
Arguments mk_dp {A} _ _ _ _ _ _ _ _.
Arguments dp_image {A} _. Arguments dp_size {A} _. Arguments dp_extent {A} _. Arguments dp_lower {A} _.
Arguments dp_cross {A} _. Arguments dp_x_inverted {A} _. Arguments dp_label {A} _. Arguments dp_aspect {A} _.

(** 961-1016: SnappedGeometry.plot_data, and 344-384, 1451-1470.  [extra] is
    data.shape[:-3]: with such dimensions [np.array(res.shape) - centre] raises
    ValueError.  [extent] and [lower] are the keyword arguments for imshow which
    may be given instead of the defaults. *)
Definition plot_data_fast {A} (nan : A) (rs : Q) (d : detector) (g : geometry) (extra : list Z) (shape : Z * Z * Z)
    (data : Z -> Z -> Z -> A) (units : string) (frontview : bool)
    (extent : option (Q * Q * Q * Q)) (lower : option bool) : res (dataplot A) :=
  let* sn := snap_geometry rs d g in
  if negb (String.eqb units "px" || String.eqb units "m") then Err EValueError else
  let* r := position_modules nan d sn shape data None in
  let '(img, (cy, cx)) := r in
  match extra with
  | _ :: _ => Err EValueError
  | [] =>
      let '(h, w) := sn_size sn in
      let k := if String.eqb units "m" then pixel_size d else 1%Q in
      let lo (z : Z) := ((inject_Z z - (1 # 2)) * k)%Q in
      let hi (z : Z) := ((inject_Z z + (1 # 2)) * k)%Q in
      let default := (lo (- cx), hi (w - cx), lo (- cy), hi (h - cy)) in
      let c := (20 * k)%Q in
      Ok (mk_dp img (h, w) (match extent with Some x => x | None => default end)
            (match lower with Some b => b | None => true end)
            [(((- c)%Q, 0%Q), (c, 0%Q)); ((0%Q, (- c)%Q), (0%Q, c))]
            frontview (axis_label units) (match d with DSSC => Some (204 # 236) | _ => None end))
  end.
