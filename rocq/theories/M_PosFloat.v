(** Pixel positions with rounded arithmetic: get_pixel_positions, data_coords_to_positions and to_distortion_array of
    geometry2/__init__.py as float64 makes them.  [fl] rounds an exact result to float64, as in M_GeomFloat, [f32] to float32,
    the type of the distortion array.  Whole numbers are exact. *)
From Coq Require Import QArith Qround.
From Verif Require Import Base M_Geom M_GeomFloat.
Local Open Scope Z_scope.
Local Open Scope list_scope.

Section Rounded.
Variables fl f32 : Q -> Q.

(** geometry2/__init__.py 472-478, 1503-1512: _adjust_pixel_coords *)
Definition adjust_pixel_fl (d : detector) (centre : bool) (s f : Z) : Q * Q :=
  match d with
  | DSSC =>
      let f' := if s mod 2 =? 1 then fsub fl (inject_Z f) (1 # 2) else inject_Z f in
      if centre then (fadd fl (inject_Z s) (fl (2 # 3)), fadd fl f' (1 # 2)) else (inject_Z s, f')
  | _ =>
      if centre then (fadd fl (inject_Z s) (1 # 2), fadd fl (inject_Z f) (1 # 2)) else (inject_Z s, inject_Z f)
  end.

(** 505-525, 588-590: corner + s * slow scan vector + f * fast scan vector *)
Definition step_fl (p ss fs : vec) (s f : Q) : vec := fvadd fl (fvadd fl p (fvmul fl ss s)) (fvmul fl fs f).
Definition tile_point_fl (t : tile) (s f : Q) : vec := step_fl (t_corner t) (t_ss t) (t_fs t) s f.

(** 503-533: one turn of the inner loop of get_pixel_positions *)
Definition write_tile_fl (d : detector) (centre : bool) (m : Z) (out : positions) (ti : Z * tile) : res positions :=
  let '(t, tl) := ti in
  if negb (m <? n_modules d) then Err EIndexError
  else if negb (t <? n_tiles d) then Err EValueError
  else
    let '(sss, sfs) := tile_slice d t in
    Ok (fun m' s f =>
          if (m' =? m) && in_slice sss s && in_slice sfs f then
            let '(ps, pf) := adjust_pixel_fl d centre (s - fst sss) (f - fst sfs) in
            tile_point_fl tl ps pf
          else out m' s f).

(** 480-535: get_pixel_positions *)
Definition get_pixel_positions_fl (d : detector) (g : geometry) (centre : bool) : res positions :=
  foldM (fun out mi => foldM (write_tile_fl d centre (fst mi)) out (zenum (snd mi)))
        (fun _ _ _ => vzero) (zenum g).

(** 869-872, 1241-1252: np.divmod of floats: the floor of the exact quotient, and the remainder, rounded. *)
Definition divmodq_fl (a : Q) (n : Z) : Z * Q :=
  let k := Qfloor (a / inject_Z n) in (k, fl (a - inject_Z n * inject_Z k))%Q.
Definition module_coords_to_tile_fl (d : detector) (ss fs : Q) : res (Z * Q * Q) :=
  match d with
  | AGIPD => let '(t, tss) := divmodq_fl ss (frag_ss AGIPD) in Ok (t, tss, fs)
  | LPD =>
      let '(across, tfs) := divmodq_fl fs (frag_fs LPD) in
      let '(up, tss) := divmodq_fl ss (frag_ss LPD) in
      Ok ((1 - across) * (7 - up) + across * (up + 8), tss, tfs)
  | DSSC => Err ENotImplementedError
  end.

(** 537-590: data_coords_to_positions, for one entry of the coordinate arrays *)
Definition data_coords_to_position_fl (d : detector) (g : geometry) (m : Z) (ss fs : Q) : res vec :=
  match List.concat g with
  | [] => Err EValueError
  | tiles =>
      let* r := module_coords_to_tile_fl d ss fs in
      let '(t, tss, tfs) := r in
      let* tl := py_index tiles (m * n_tiles d + t) in
      Ok (tile_point_fl tl tss tfs)
  end.

(** 129-132, 1327-1330: _pixel_corners *)
Definition four_thirds (q : Q) : Q := fdiv fl (fmul fl q 4) 3.
Definition pixel_corners_fl (d : detector) : list (Q * Q) :=
  match d with
  | DSSC => [ (four_thirds 0, 1 # 2); (four_thirds (1 # 4), 1); (four_thirds (3 # 4), 1);
              (four_thirds 1, 1 # 2); (four_thirds (3 # 4), 0); (four_thirds (1 # 4), 0) ]%Q
  | _ => [ (0, 0); (1, 0); (1, 1); (0, 1) ]%Q
  end.

(** 417-452: one turn of the inner loop of to_distortion_array; the coordinates are rounded to float32 when they are put in
    the array. *)
Definition distort_tile_fl (d : detector) (pix : positions) (m : Z) (out : distortion) (ti : Z * tile) : distortion :=
  let '(t, tl) := ti in
  let '(sss, sfs) := distortion_slice d m t in
  fun r c k =>
    if in_slice sss r && in_slice sfs c then
      let p := pix (r / mod_ss d) (r mod mod_ss d) c in
      match nth_error (pixel_corners_fl d) k with
      | Some (cs, cf) =>
          let q := step_fl p (t_ss tl) (t_fs tl) cs cf in
          (f32 (vz q), f32 (vy q), f32 (vx q))
      | None => out r c k
      end
    else out r c k.

(** 401-459: to_distortion_array; the minimum is that of the float32 numbers, and is subtracted in float32. *)
Definition to_distortion_array_fl (d : detector) (g : geometry) (allow_negative_xy : bool) : res distortion :=
  let* pix := get_pixel_positions_fl d g false in
  let a := fold_left (fun out mi => fold_left (distort_tile_fl d pix (fst mi)) (zenum (snd mi)) out)
             (zenum g) (fun _ _ _ => (0, 0, 0)%Q) in
  if allow_negative_xy then Ok a
  else
    match distortion_entries d a with
    | [] => Err EValueError
    | e :: es =>
        let miny := qmin_list (map d_y es) (d_y e) in
        let minx := qmin_list (map d_x es) (d_x e) in
        Ok (fun r c k => let v := a r c k in (d_z v, fsub f32 (d_y v) miny, fsub f32 (d_x v) minx)%Q)
    end.
End Rounded.
