(** Detector geometry: geometry2/__init__.py.

    Numbers.  The code works with float64 (float32 in the distortion array).
    Here every number is an exact rational and arithmetic is exact; rounding errors
    of floating point are in M_GeomFloat and M_PosFloat.  The step between rows of DSSC
    pixels, 1.5/np.sqrt(3), is a parameter [rs] (the float is a rational).
    Arrays are functions of their indexes together with an explicit shape; any
    leading dimensions of the image data ("...") are treated elementwise, so one
    frame is modelled.  Plotting (inspect, compare, plot_data) is in
    M_Plot. *)

From Coq Require Import QArith Qround Qabs.
From Verif Require Import Base.

Local Open Scope Z_scope.
Local Open Scope list_scope.

(** A numpy array of three coordinates (x, y, z). *)
Record vec := mk_vec { vx : Q; vy : Q; vz : Q }.

Definition vadd (a b : vec) : vec := mk_vec (vx a + vx b) (vy a + vy b) (vz a + vz b).
Definition vsub (a b : vec) : vec := mk_vec (vx a - vx b) (vy a - vy b) (vz a - vz b).
Definition vmul (q : Q) (a : vec) : vec := mk_vec (q * vx a) (q * vy a) (q * vz a).
Definition vdiv (a : vec) (q : Q) : vec := mk_vec (vx a / q) (vy a / q) (vz a / q).
Definition vzero : vec := mk_vec 0 0 0.

(** geometry2/__init__.py 15-31: GeometryFragment *)
Record tile := mk_tile {
  t_corner : vec;
  t_ss : vec;
  t_fs : vec;
  t_ss_px : Z;
  t_fs_px : Z
}.

(** 140-142: self.modules, a list (one per module) of lists of fragments *)
Definition geometry := list (list tile).

(** 43-49: GeometryFragment.corners *)
Definition tile_corners (t : tile) : list vec :=
  [ t_corner t;
    vadd (t_corner t) (vmul (inject_Z (t_fs_px t)) (t_fs t));
    vadd (vadd (t_corner t) (vmul (inject_Z (t_ss_px t)) (t_ss t))) (vmul (inject_Z (t_fs_px t)) (t_fs t));
    vadd (t_corner t) (vmul (inject_Z (t_ss_px t)) (t_ss t)) ].

(** 51-56: GeometryFragment.centre *)
Definition tile_centre (t : tile) : vec :=
  vadd (vadd (t_corner t) (vmul ((1 # 2) * inject_Z (t_ss_px t)) (t_ss t)))
       (vmul ((1 # 2) * inject_Z (t_fs_px t)) (t_fs t)).

(** The three subclasses of DetectorGeometryBase: 593, 1018, 1304 *)
Inductive detector := AGIPD | LPD | DSSC.

(** 601, 1026, 1313 *)
Definition pixel_size (d : detector) : Q :=
  match d with AGIPD => 2 # 10000 | LPD => 5 # 10000 | DSSC => 236 # 1000000 end.
(** 602, 1027, 1314 *)
Definition frag_ss (d : detector) : Z := match d with AGIPD => 64 | LPD => 32 | DSSC => 128 end.
(** 603, 1028, 1315 *)
Definition frag_fs (d : detector) : Z := match d with AGIPD => 128 | LPD => 128 | DSSC => 256 end.
(** 605, 1029, 1316 *)
Definition n_modules (d : detector) : Z := 16.
(** 606, 1030, 1317 *)
Definition n_tiles (d : detector) : Z := match d with AGIPD => 8 | LPD => 16 | DSSC => 2 end.
(** 604, 1031, 1318: expected_data_shape[1] and [2] *)
Definition mod_ss (d : detector) : Z := match d with AGIPD => 512 | LPD => 256 | DSSC => 128 end.
Definition mod_fs (d : detector) : Z := match d with AGIPD => 128 | LPD => 256 | DSSC => 512 end.

(** 135-138, 1321: _pixel_shape, (x, y) *)
Definition pixel_shape (rs : Q) (d : detector) : Q * Q :=
  match d with
  | DSSC => (1 * pixel_size DSSC, rs * pixel_size DSSC)%Q
  | _ => (1 * pixel_size d, 1 * pixel_size d)%Q
  end.

(** 129-132, 1327-1330: _pixel_corners, pairs (slow scan, fast scan) *)
Definition pixel_corners (d : detector) : list (Q * Q) :=
  match d with
  | DSSC => [ (0 * 4 / 3, 1 # 2); ((1 # 4) * 4 / 3, 1); ((3 # 4) * 4 / 3, 1);
              (1 * 4 / 3, 1 # 2); ((3 # 4) * 4 / 3, 0); ((1 # 4) * 4 / 3, 0) ]%Q
  | _ => [ (0, 0); (1, 0); (1, 1); (0, 1) ]%Q
  end.

(** 461-465, 860-867, 1228-1239, 1472-1477: _tile_slice; a slice is
    (start, stop), slow scan then fast scan *)
Definition tile_slice (d : detector) (t : Z) : (Z * Z) * (Z * Z) :=
  match d with
  | AGIPD =>
      let off := t * frag_ss AGIPD in
      ((off, off + frag_ss AGIPD), (0, frag_fs AGIPD))
  | LPD =>
      let fs := if t <? 8 then (0, 128) else (128, 256) in
      let up := if t <? 8 then 7 - t else t - 8 in
      let off := up * 32 in
      ((off, off + frag_ss LPD), fs)
  | DSSC =>
      let off := t * frag_fs DSSC in
      ((0, frag_ss DSSC), (off, off + frag_fs DSSC))
  end.

(** [np.split(a, n, axis)] of a 2D array with [len] entries on that axis
    ([len] divisible by [n]): the n equal parts, as arrays of their own *)
Definition np_split0 {A} (n : nat) (len : Z) (a : Z -> Z -> A) : list (Z -> Z -> A) :=
  map (fun i s f => a (Z.of_nat i * (len / Z.of_nat n) + s) f) (seq 0 n).
Definition np_split1 {A} (n : nat) (len : Z) (a : Z -> Z -> A) : list (Z -> Z -> A) :=
  map (fun i s f => a s (Z.of_nat i * (len / Z.of_nat n) + f)) (seq 0 n).

(** 855-858, 1221-1226, 1446-1449: split_tiles *)
Definition split_tiles {A} (d : detector) (a : Z -> Z -> A) : list (Z -> Z -> A) :=
  match d with
  | AGIPD => np_split0 8 (mod_ss AGIPD) a
  | LPD =>
      match np_split1 2 (mod_fs LPD) a with
      | [half1; half2] => rev (np_split0 8 (mod_ss LPD) half1) ++ np_split0 8 (mod_ss LPD) half2
      | _ => []
      end
  | DSSC => np_split1 2 (mod_fs DSSC) a
  end.

(** 472-478, 1503-1512: _adjust_pixel_coords, for the pixel (s, f) of a tile *)
Definition adjust_pixel (d : detector) (centre : bool) (s f : Z) : Q * Q :=
  match d with
  | DSSC =>
      let f' := if s mod 2 =? 1 then (inject_Z f - (1 # 2))%Q else inject_Z f in
      if centre then (inject_Z s + (2 # 3), f' + (1 # 2))%Q else (inject_Z s, f')
  | _ =>
      if centre then (inject_Z s + (1 # 2), inject_Z f + (1 # 2))%Q else (inject_Z s, inject_Z f)
  end.

(** 505-525: position of the point (s, f) of a tile *)
Definition tile_point (t : tile) (s f : Q) : vec :=
  vadd (vadd (t_corner t) (vmul s (t_ss t))) (vmul f (t_fs t)).

Definition in_slice (sl : Z * Z) (i : Z) : bool := (fst sl <=? i) && (i <? snd sl).

(** numbers the entries of a list, as enumerate(l) *)
Definition zenum {A} (l : list A) : list (Z * A) := combine (map Z.of_nat (seq 0 (List.length l))) l.

Definition positions := Z -> Z -> Z -> vec.

(** 503-533: one turn of the inner loop of get_pixel_positions.  A module number
    beyond the array raises IndexError; a tile number beyond the module makes an
    empty slice, and the assignment raises ValueError. *)
Definition write_tile (d : detector) (centre : bool) (m : Z) (out : positions) (ti : Z * tile) : res positions :=
  let '(t, tl) := ti in
  if negb (m <? n_modules d) then Err EIndexError
  else if negb (t <? n_tiles d) then Err EValueError
  else
    let '(sss, sfs) := tile_slice d t in
    Ok (fun m' s f =>
          if (m' =? m) && in_slice sss s && in_slice sfs f then
            let '(ps, pf) := adjust_pixel d centre (s - fst sss) (f - fst sfs) in
            tile_point tl ps pf
          else out m' s f).

(** 480-535: get_pixel_positions *)
Definition get_pixel_positions (d : detector) (g : geometry) (centre : bool) : res positions :=
  foldM (fun out mi => foldM (write_tile d centre (fst mi)) out (zenum (snd mi)))
        (fun _ _ _ => vzero) (zenum g).

(** 869-872, 1241-1252, 467-470: _module_coords_to_tile, for one coordinate pair.
    np.divmod of floats rounds the quotient down.  The cast to int16 is taken to
    be exact (it is for coordinates within a module). *)
Definition divmodq (a : Q) (n : Z) : Z * Q :=
  let k := Qfloor (a / inject_Z n) in (k, a - inject_Z n * inject_Z k)%Q.

Definition module_coords_to_tile (d : detector) (ss fs : Q) : res (Z * Q * Q) :=
  match d with
  | AGIPD => let '(t, tss) := divmodq ss (frag_ss AGIPD) in Ok (t, tss, fs)
  | LPD =>
      let '(across, tfs) := divmodq fs (frag_fs LPD) in
      let '(up, tss) := divmodq ss (frag_ss LPD) in
      Ok ((1 - across) * (7 - up) + across * (up + 8), tss, tfs)
  | DSSC => Err ENotImplementedError
  end.

(** 537-590: data_coords_to_positions, for one entry of the coordinate arrays.
    np.stack of no tiles raises ValueError. *)
Definition data_coords_to_position (d : detector) (g : geometry) (m : Z) (ss fs : Q) : res vec :=
  match List.concat g with
  | [] => Err EValueError
  | tiles =>
      let* r := module_coords_to_tile d ss fs in
      let '(t, tss, tfs) := r in
      let* tl := py_index tiles (m * n_tiles d + t) in
      Ok (tile_point tl tss tfs)
  end.

(** ** Snapped geometry *)

(** np.around: to the nearest integer, halves to even.  The cast to int32 is
    taken to be exact. *)
Definition np_around (q : Q) : Z :=
  let f := Qfloor q in
  match Qcompare (q - inject_Z f) (1 # 2) with
  | Lt => f
  | Gt => f + 1
  | Eq => if Z.even f then f else f + 1
  end.

(** 74-117: GridGeometryFragment.  [g_swap] and the two orders stand for the
    closure self.transform. *)
Record gfrag := mk_gfrag {
  g_ss : Z * Z; g_fs : Z * Z;
  g_swap : bool; g_ss_order : Z; g_fs_order : Z;
  g_dims : Z * Z;
  g_corner : Z * Z;
  g_opp : Z * Z
}.

(** 90-117: GridGeometryFragment.__init__ *)
Definition mk_grid (corner ss fs : Z * Z) (ss_px fs_px : Z) : gfrag :=
  if fst fs =? 0 then
    let fs_order := snd fs in
    let ss_order := fst ss in
    let shift := (Z.min ss_order 0 * ss_px, Z.min fs_order 0 * fs_px) in
    let c := (fst corner + fst shift, snd corner + snd shift) in
    mk_gfrag ss fs false ss_order fs_order (ss_px, fs_px) c (fst c + ss_px, snd c + fs_px)
  else
    let fs_order := fst fs in
    let ss_order := snd ss in
    let shift := (Z.min fs_order 0 * fs_px, Z.min ss_order 0 * ss_px) in
    let c := (fst corner + fst shift, snd corner + snd shift) in
    mk_gfrag ss fs true ss_order fs_order (fs_px, ss_px) c (fst c + fs_px, snd c + ss_px).

(** indexing [::order] on an axis of length n, order being 1 or -1 *)
Definition flip (order n i : Z) : Z := if order =? 1 then i else n - 1 - i.

(** 100, 110: self.transform, for a tile of ss_px by fs_px pixels; the result has
    shape g_dims *)
Definition transform {A} (g : gfrag) (a : Z -> Z -> A) : Z -> Z -> A :=
  if g_swap g then
    fun y x => a (flip (g_ss_order g) (snd (g_dims g)) x) (flip (g_fs_order g) (fst (g_dims g)) y)
  else
    fun y x => a (flip (g_ss_order g) (fst (g_dims g)) y) (flip (g_fs_order g) (snd (g_dims g)) x).

(** 66: {tuple(np.abs(ss_vec)), tuple(np.abs(fs_vec))} == {(0, 1), (1, 0)} *)
Definition pair_eqb (a b : Z * Z) : bool := (fst a =? fst b) && (snd a =? snd b).
Definition axis_aligned (ss fs : Z * Z) : bool :=
  let a := (Z.abs (fst ss), Z.abs (snd ss)) in
  let b := (Z.abs (fst fs), Z.abs (snd fs)) in
  (pair_eqb a (0, 1) && pair_eqb b (1, 0)) || (pair_eqb a (1, 0) && pair_eqb b (0, 1)).

(** 60-62: rounding of the x and y of a vector *)
Definition round_xy (v : vec) (px : Q * Q) : Z * Z :=
  (np_around (vx v / fst px), np_around (vy v / snd px)).

Definition swap (p : Z * Z) : Z * Z := (snd p, fst p).

(** 58-71: GeometryFragment.snap *)
Definition snap (px : Q * Q) (t : tile) : res gfrag :=
  let c := round_xy (t_corner t) px in
  let ss := round_xy (t_ss t) px in
  let fs := round_xy (t_fs t) px in
  if axis_aligned ss fs
  then Ok (mk_grid (swap c) (swap ss) (swap fs) (t_ss_px t) (t_fs_px t))
  else Err EAssertionError.

Definition zmin_list (l : list Z) (z : Z) : Z := fold_left Z.min l z.
Definition zmax_list (l : list Z) (z : Z) : Z := fold_left Z.max l z.

Record snapped := mk_snapped {
  sn_modules : list (list gfrag);
  sn_size : Z * Z;
  sn_centre : Z * Z
}.

(** 941-959: SnappedGeometry._get_dimensions.  np.stack of no corners raises
    ValueError. *)
Definition snapped_dimensions (ms : list (list gfrag)) : res ((Z * Z) * (Z * Z)) :=
  let corners := flat_map (fun g => [g_corner g; g_opp g]) (List.concat ms) in
  match corners with
  | [] => Err EValueError
  | c :: cs =>
      let miny := zmin_list (map fst cs) (fst c) in
      let minx := zmin_list (map snd cs) (snd c) in
      let maxy := zmax_list (map fst cs) (fst c) in
      let maxx := zmax_list (map snd cs) (snd c) in
      Ok ((maxy - miny, maxx - minx), (- miny, - minx))
  end.

(** 266-279, 906-909: _snapped and SnappedGeometry.__init__.  The cache
    (_snapped_cache) is not modelled: it makes no difference unless self.modules
    is modified after the first call. *)
Definition snap_geometry (rs : Q) (d : detector) (g : geometry) : res snapped :=
  let* ms := mapM (mapM (snap (pixel_shape rs d))) g in
  let* sc := snapped_dimensions ms in
  Ok (mk_snapped ms (fst sc) (snd sc)).

(** 289-307, 911-915: output_array_for_position_fast; only the shape of the array,
    without the extra dimensions *)
Definition output_shape (rs : Q) (d : detector) (g : geometry) : res (Z * Z) :=
  let* sn := snap_geometry rs d g in Ok (sn_size sn).

Definition image (A : Type) := Z -> Z -> A.

(** 932-937: one turn of the inner loop of position_modules.  The block's lower
    bounds are never negative (centre is minus the minimum), so numpy's
    counting from the end does not come in.  Assigning a tile's data to a block
    of another shape raises ValueError. *)
Definition place_tile {A} (d : detector) (centre : Z * Z) (tiles_data : list (Z -> Z -> A))
    (out : image A) (jg : Z * gfrag) : res (image A) :=
  let '(j, g) := jg in
  let* data := nth_res tiles_data (Z.to_nat j) in
  let y0 := fst (g_corner g) + fst centre in
  let x0 := snd (g_corner g) + snd centre in
  let '(h, w) := g_dims g in
  if pair_eqb (h, w) (if g_swap g then (frag_fs d, frag_ss d) else (frag_ss d, frag_fs d)) then
    Ok (fun y x =>
          if in_slice (y0, y0 + h) y && in_slice (x0, x0 + w) x
          then transform g data (y - y0) (x - x0) else out y x)
  else Err EValueError.

(** the out= argument: its shape, whether the data's dtype can be safely cast to
    its dtype, and its contents *)
Record out_arr (A : Type) := mk_out { oa_shape : Z * Z; oa_cast : bool; oa_at : image A }.
Arguments mk_out {A} _ _ _.
Arguments oa_shape {A} _. Arguments oa_cast {A} _. Arguments oa_at {A} _.

(** 911-939: position_modules.  [shape] is data.shape[-3:]; [nan] the value
    np.full writes (NaN for floating point data). *)
Definition position_modules {A} (nan : A) (d : detector) (sn : snapped) (shape : Z * Z * Z)
    (data : Z -> Z -> Z -> A) (out : option (out_arr A)) : res (image A * (Z * Z)) :=
  let '(n, a, b) := shape in
  if negb ((n =? n_modules d) && (a =? mod_ss d) && (b =? mod_fs d)) then Err EAssertionError
  else
    let* o0 := match out with
               | None => Ok (fun _ _ => nan)
               | Some o =>
                   if negb (pair_eqb (oa_shape o) (sn_size sn)) then Err EAssertionError
                   else if negb (oa_cast o) then Err ETypeError
                   else Ok (oa_at o)
               end in
    let* o := foldM (fun acc im =>
                 if negb (fst im <? n_modules d) then Err EIndexError
                 else foldM (place_tile d (sn_centre sn) (split_tiles d (data (fst im)))) acc (zenum (snd im)))
               o0 (zenum (sn_modules sn)) in
    Ok (o, sn_centre sn).

(** 309-338: position_modules_fast *)
Definition position_modules_fast {A} (nan : A) (rs : Q) (d : detector) (g : geometry) (shape : Z * Z * Z)
    (data : Z -> Z -> Z -> A) (out : option (out_arr A)) : res (image A * (Z * Z)) :=
  let* sn := snap_geometry rs d g in
  position_modules nan d sn shape data out.

(** ** Distortion array *)

(** 386-399: _distortion_array_slice *)
Definition distortion_slice (d : detector) (m t : Z) : (Z * Z) * (Z * Z) :=
  let '(ss, fs) := tile_slice d t in
  let off := m * mod_ss d in
  ((fst ss + off, snd ss + off), fs).

(** row, column, corner number; the entries are (z, y, x) *)
Definition distortion := Z -> Z -> nat -> Q * Q * Q.

(** 417-452: one turn of the inner loop of to_distortion_array.  The errors for
    modules or tiles beyond the array have been raised by get_pixel_positions
    before. *)
Definition distort_tile (d : detector) (pix : positions) (m : Z) (out : distortion) (ti : Z * tile) : distortion :=
  let '(t, tl) := ti in
  let '(sss, sfs) := distortion_slice d m t in
  fun r c k =>
    if in_slice sss r && in_slice sfs c then
      let p := pix (r / mod_ss d) (r mod mod_ss d) c in
      match nth_error (pixel_corners d) k with
      | Some (cs, cf) =>
          let q := vadd (vadd p (vmul cs (t_ss tl))) (vmul cf (t_fs tl)) in
          (vz q, vy q, vx q)
      | None => out r c k
      end
    else out r c k.

Definition qmin (a b : Q) : Q := if Qle_bool a b then a else b.
Definition qmin_list (l : list Q) (z : Q) : Q := fold_left qmin l z.

(** all entries of the array, in order *)
Definition distortion_entries (d : detector) (a : distortion) : list (Q * Q * Q) :=
  flat_map (fun r => flat_map (fun c => map (fun k => a (Z.of_nat r) (Z.of_nat c) k)
                                          (seq 0 (List.length (pixel_corners d))))
                              (seq 0 (Z.to_nat (mod_fs d))))
           (seq 0 (Z.to_nat (n_modules d) * Z.to_nat (mod_ss d))).

Definition d_y (e : Q * Q * Q) : Q := snd (fst e).
Definition d_x (e : Q * Q * Q) : Q := snd e.
Definition d_z (e : Q * Q * Q) : Q := fst (fst e).

(** 401-459: to_distortion_array (the array itself is float32: see M_PosFloat) *)
Definition to_distortion_array (d : detector) (g : geometry) (allow_negative_xy : bool) : res distortion :=
  let* pix := get_pixel_positions d g false in
  let a := fold_left (fun out mi => fold_left (distort_tile d pix (fst mi)) (zenum (snd mi)) out)
             (zenum g) (fun _ _ _ => (0, 0, 0)%Q) in
  if allow_negative_xy then Ok a
  else
    match distortion_entries d a with
    | [] => Err EValueError
    | e :: es =>
        let miny := qmin_list (map d_y es) (d_y e) in
        let minx := qmin_list (map d_x es) (d_x e) in
        Ok (fun r c k => let v := a r c k in (d_z v, d_y v - miny, d_x v - minx)%Q)
    end.

(** ** Constructors *)

Definition zr (n : nat) : list Z := map Z.of_nat (seq 0 n).

(** 608-662: AGIPD_1MGeometry.from_quad_positions.  quad_pos holds (x, y). *)
Definition agipd_from_quad_positions (quad_pos : list (Q * Q)) (asic_gap panel_gap unit : Q) : res geometry :=
  let ps := pixel_size AGIPD in
  let asic_gap_px := (asic_gap * unit / ps)%Q in
  let panel_gap_px := (panel_gap * unit / ps)%Q in
  let module_height := ((inject_Z (frag_fs AGIPD) + panel_gap_px) * ps)%Q in
  let tile_width := ((inject_Z (frag_ss AGIPD) + asic_gap_px) * ps)%Q in
  mapM (fun p =>
    let quad := p / 4 in
    let* qc := py_index quad_pos quad in
    let* xo := py_index [1; 1; -1; -1] quad in
    let* yo := py_index [-1; -1; 1; 1] quad in
    let corner_y := (snd qc * unit - inject_Z (p mod 4) * module_height)%Q in
    Ok (map (fun a =>
          let corner_x := (fst qc * unit + inject_Z xo * tile_width * inject_Z a)%Q in
          mk_tile (mk_vec corner_x corner_y 0)
                  (vmul unit (mk_vec (inject_Z xo) 0 0))
                  (vmul unit (mk_vec 0 (inject_Z yo) 0))
                  (frag_ss AGIPD) (frag_fs AGIPD)) (zr 8)))
    (zr 16).

(** 1034-1122: LPD_1MGeometry.from_quad_positions *)
Definition lpd_from_quad_positions (quad_pos : list (Q * Q)) (unit : Q) (asic_gap panel_gap : option Q) : res geometry :=
  let ps := pixel_size LPD in
  let conv := (unit / ps)%Q in
  let asic_gap_px := match asic_gap with None => 4 | Some g => g * conv end%Q in
  let panel_gap_px := match panel_gap with None => 4 | Some g => g * conv end%Q in
  let panel_width := ((256 + asic_gap_px + panel_gap_px) * ps)%Q in
  let panel_height := ((256 + (7 * asic_gap_px) + panel_gap_px) * ps)%Q in
  let tile_width := ((inject_Z (frag_fs LPD) + asic_gap_px) * ps)%Q in
  let tile_height := ((inject_Z (frag_ss LPD) + asic_gap_px) * ps)%Q in
  let tile_size := mk_vec (inject_Z (frag_fs LPD) * ps) (inject_Z (frag_ss LPD) * ps) 0 in
  mapM (fun p =>
    let quad := p / 4 in
    let* qp := py_index quad_pos quad in
    let quad_x := (fst qp * unit)%Q in
    let quad_y := (snd qp * unit)%Q in
    let* pa := py_index [-1; -1; 0; 0] (p mod 4) in
    let* pu := py_index [0; -1; -1; 0] (p mod 4) in
    let panel_x := (quad_x + inject_Z pa * panel_width)%Q in
    let panel_y := (quad_y + inject_Z pu * panel_height)%Q in
    Ok (map (fun a =>
          let up := if a <? 8 then - a else - (15 - a) in
          let across := if a <? 8 then -1 else 0 in
          let last := vadd (vadd (mk_vec panel_x panel_y 0)
                                 (vmul tile_width (mk_vec (inject_Z across) 0 0)))
                           (vmul tile_height (mk_vec 0 (inject_Z up) 0)) in
          mk_tile (vsub last tile_size)
                  (vmul ps (mk_vec 0 1 0)) (vmul ps (mk_vec 1 0 0))
                  (frag_ss LPD) (frag_fs LPD)) (zr 16)))
    (zr 16).

(** An EuXFEL geometry file (HDF5): the positions of the modules (Q, M) and tiles
    (Q, M, T), all counted from 1, and the names of the description dataset the
    file has.  Positions are (x, y); more than two numbers in the file are cut by
    [:2].  Missing entries raise KeyError. *)
Record h5geom := mk_h5geom {
  h5_description : list string;
  h5_module : Z -> Z -> option (Q * Q);
  h5_tile : Z -> Z -> Z -> option (Q * Q)
}.

Definition get_key {A} (o : option A) : res A := match o with Some a => Ok a | None => Err EKeyError end.

Definition quad_modules : list (Z * Z) :=
  flat_map (fun q => map (fun m => (q, m)) [1; 2; 3; 4]) [1; 2; 3; 4].

(** 1124-1185: LPD_1MGeometry.from_h5_file_and_quad_positions *)
Definition lpd_from_h5 (f : h5geom) (positions : list (Q * Q)) (unit : Q) : res geometry :=
  if negb (Nat.eqb (List.length positions) 4) then Err EAssertionError else
  mapM (fun qm =>
    let '(q, m) := qm in
    let* qp := py_index positions (q - 1) in
    let* mo := get_key (h5_module f q m) in
    mapM (fun t =>
      let* to := get_key (h5_tile f q m t) in
      let corner := vmul unit (mk_vec (fst qp + fst mo + fst to) (snd qp + snd mo + snd to) 0) in
      let ss := vmul (pixel_size LPD) (mk_vec 0 1 0) in
      let fs := vmul (pixel_size LPD) (mk_vec 1 0 0) in
      Ok (mk_tile (vsub (vsub corner (vmul (inject_Z (frag_ss LPD)) ss)) (vmul (inject_Z (frag_fs LPD)) fs))
                  ss fs (frag_ss LPD) (frag_fs LPD)))
      (map (fun i => i + 1) (zr (Z.to_nat (n_modules LPD)))))
    quad_modules.

(** 1332-1410: DSSC_1MGeometry.from_h5_file_and_quad_positions *)
Definition dssc_from_h5 (rs : Q) (f : h5geom) (positions : list (Q * Q)) (unit : Q) : res geometry :=
  if negb (Nat.eqb (List.length positions) 4) then Err EAssertionError else
  mapM (fun qm =>
    let '(q, m) := qm in
    let* qp := py_index positions (q - 1) in
    let* mo := get_key (h5_module f q m) in
    let* xo := py_index [-1; -1; 1; 1] (q - 1) in
    let* yo := py_index [1; 1; -1; -1] (q - 1) in
    mapM (fun t =>
      let* to := get_key (h5_tile f q m t) in
      let corner := vmul unit (mk_vec (fst qp + fst mo + fst to) (snd qp + snd mo + snd to) 0) in
      let ss := vmul (pixel_size DSSC * rs) (mk_vec 0 (inject_Z yo) 0) in
      let fs := vmul (pixel_size DSSC) (mk_vec (inject_Z xo) 0 0) in
      let first := if xo =? -1 then vsub corner (vmul (inject_Z (frag_fs DSSC)) fs)
                   else vsub corner (vmul (inject_Z (frag_ss DSSC)) ss) in
      Ok (mk_tile first ss fs (frag_ss DSSC) (frag_fs DSSC)))
      [1; 2])
    quad_modules.

(** 1279-1301: invert_xfel_lpd_geom, on the contents of the two files.  The
    output file must not exist before (mode 'x'), not modelled. *)
Definition neg2 (p : Q * Q) : Q * Q := (- fst p, - snd p)%Q.
Definition all_keys {A} (f : A -> option (Q * Q)) (l : list A) : res unit :=
  let* _ := mapM (fun a => get_key (f a)) l in Ok tt.

Definition invert_lpd (f : h5geom) : res h5geom :=
  if negb (str_in "DetectorDescribtion" (h5_description f)) then Err EKeyError else
  let* _ := mapM (fun qm =>
      let* _ := get_key (h5_module f (fst qm) (snd qm)) in
      all_keys (fun t => h5_tile f (fst qm) (snd qm) t) (map (fun i => i + 1) (zr 16))) quad_modules in
  let known q m := existsb (fun qm => pair_eqb qm (q, m)) quad_modules in
  Ok (mk_h5geom ["DetectorDescription"%string]
        (fun q m => if known q m then option_map neg2 (h5_module f q m) else None)
        (fun q m t => if known q m && (1 <=? t) && (t <=? 16) then option_map neg2 (h5_tile f q m t) else None)).

(** ** Assembly with interpolation (AGIPD) *)

(** 835-853: _get_dimensions of AGIPD.  astype(int) rounds towards zero. *)
Definition trunc (q : Q) : Z := Z.quot (Qnum q) (Zpos (Qden q)).
Definition qmax (a b : Q) : Q := if Qle_bool a b then b else a.

Definition agipd_dimensions (g : geometry) : res ((Z * Z) * (Z * Z)) :=
  let ps := pixel_size AGIPD in
  match map (fun v => (vx v / ps, vy v / ps)%Q) (flat_map tile_corners (List.concat g)) with
  | [] => Err EValueError
  | c :: cs =>
      let minx := trunc (fold_left qmin (map fst cs) (fst c)) - 1 in
      let miny := trunc (fold_left qmin (map snd cs) (snd c)) - 1 in
      let maxx := trunc (fold_left qmax (map fst cs) (fst c)) + 1 in
      let maxy := trunc (fold_left qmax (map snd cs) (snd c)) + 1 in
      Ok ((maxy - miny, maxx - minx), (- miny, - minx))
  end.

(** 2x2 matrices, row by row, as [[a; b]; [c; d]] = (a, b, c, d) *)
Definition mat := (Q * Q * Q * Q)%type.
Definition mat_apply (m : mat) (v : Q * Q) : Q * Q :=
  let '(a, b, c, d) := m in (a * fst v + b * snd v, c * fst v + d * snd v)%Q.
Definition mat_det (m : mat) : Q := let '(a, b, c, d) := m in (a * d - b * c)%Q.
Definition mat_inv (m : mat) : mat :=
  let '(a, b, c, d) := m in
  let k := mat_det m in (d / k, - b / k, - c / k, a / k)%Q.

(** 803-826: the mapping from an output pixel (y, x) to a point (slow scan, fast
    scan) of the tile's data that position_modules_interpolate passes to
    scipy.ndimage.affine_transform: input = transform . output + offset.
    np.linalg.inv raises LinAlgError (not modelled) for a singular matrix. *)
Definition interpolate_map (centre : Z * Z) (t : tile) (o : Q * Q) : Q * Q :=
  let corner := (vy (t_corner t) + inject_Z (fst centre), vx (t_corner t) + inject_Z (snd centre))%Q in
  let rotn : mat := (vy (t_ss t), vy (t_fs t), vx (t_ss t), vx (t_fs t)) in
  let off := mat_apply rotn corner in
  let p := mat_apply (mat_inv rotn) o in
  (fst p + fst off, snd p + snd off)%Q.
