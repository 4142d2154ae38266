(** Detector geometry with rounded arithmetic: the computations of M_Geom up to the
    snapped geometry as float64 makes them.  [fl] rounds an exact result to a
    floating point number; every operation of the code on floats is the exact one
    followed by [fl], and every number written in the program text is rounded
    when it is read.  Whole numbers (sizes in pixels, signs, counters) are exact.
    What follows snapping works with integers and is that of M_Geom. *)

From Coq Require Import QArith Qround Qabs.
From Verif Require Import Base M_Geom.

Local Open Scope Z_scope.
Local Open Scope list_scope.

Section Rounded.
Variable fl : Q -> Q.

Definition fadd (a b : Q) : Q := fl (a + b)%Q.
Definition fsub (a b : Q) : Q := fl (a - b)%Q.
Definition fmul (a b : Q) : Q := fl (a * b)%Q.
Definition fdiv (a b : Q) : Q := fl (a / b)%Q.

Definition fvadd (a b : vec) : vec := mk_vec (fadd (vx a) (vx b)) (fadd (vy a) (vy b)) (fadd (vz a) (vz b)).
Definition fvsub (a b : vec) : vec := mk_vec (fsub (vx a) (vx b)) (fsub (vy a) (vy b)) (fsub (vz a) (vz b)).
Definition fvmul (a : vec) (q : Q) : vec := mk_vec (fmul (vx a) q) (fmul (vy a) q) (fmul (vz a) q).
Definition fvdiv (a : vec) (q : Q) : vec := mk_vec (fdiv (vx a) q) (fdiv (vy a) q) (fdiv (vz a) q).

(** geometry2/__init__.py 601, 1026, 1313 *)
Definition pixel_size_fl (d : detector) : Q := fl (pixel_size d).

(** 135-138: _pixel_shape of AGIPD and LPD, (x, y) *)
Definition pixel_shape_fl (d : detector) : Q * Q := (fmul 1 (pixel_size_fl d), fmul 1 (pixel_size_fl d)).

(** 60-62: np.around(v[:2] / px_shape) *)
Definition round_xy_fl (v : vec) (px : Q * Q) : Z * Z :=
  (np_around (fdiv (vx v) (fst px)), np_around (fdiv (vy v) (snd px))).

(** 58-71: GeometryFragment.snap *)
Definition snap_fl (px : Q * Q) (t : tile) : res gfrag :=
  let c := round_xy_fl (t_corner t) px in
  let ss := round_xy_fl (t_ss t) px in
  let fs := round_xy_fl (t_fs t) px in
  if axis_aligned ss fs
  then Ok (mk_grid (swap c) (swap ss) (swap fs) (t_ss_px t) (t_fs_px t))
  else Err EAssertionError.

(** 266-279, 906-909: _snapped *)
Definition snap_geometry_fl (px : Q * Q) (g : geometry) : res snapped :=
  let* ms := mapM (mapM (snap_fl px)) g in
  let* sc := snapped_dimensions ms in
  Ok (mk_snapped ms (fst sc) (snd sc)).

(** 309-338: position_modules_fast *)
Definition position_modules_fast_fl {A} (nan : A) (px : Q * Q) (d : detector) (g : geometry) (shape : Z * Z * Z)
    (data : Z -> Z -> Z -> A) (out : option (out_arr A)) : res (image A * (Z * Z)) :=
  let* sn := snap_geometry_fl px g in
  position_modules nan d sn shape data out.

(** 608-662: AGIPD_1MGeometry.from_quad_positions *)
Definition agipd_from_quad_positions_fl (quad_pos : list (Q * Q)) (asic_gap panel_gap unit : Q) : res geometry :=
  let ps := pixel_size_fl AGIPD in
  let asic_gap_px := fdiv (fmul asic_gap unit) ps in
  let panel_gap_px := fdiv (fmul panel_gap unit) ps in
  let module_height := fmul (fadd (inject_Z (frag_fs AGIPD)) panel_gap_px) ps in
  let tile_width := fmul (fadd (inject_Z (frag_ss AGIPD)) asic_gap_px) ps in
  mapM (fun p =>
    let quad := p / 4 in
    let* qc := py_index quad_pos quad in
    let* xo := py_index [1; 1; -1; -1] quad in
    let* yo := py_index [-1; -1; 1; 1] quad in
    let corner_y := fsub (fmul (snd qc) unit) (fmul (inject_Z (p mod 4)) module_height) in
    Ok (map (fun a =>
          let corner_x := fadd (fmul (fst qc) unit) (fmul (fmul (inject_Z xo) tile_width) (inject_Z a)) in
          mk_tile (mk_vec corner_x corner_y 0)
                  (fvmul (mk_vec (inject_Z xo) 0 0) unit)
                  (fvmul (mk_vec 0 (inject_Z yo) 0) unit)
                  (frag_ss AGIPD) (frag_fs AGIPD)) (zr 8)))
    (zr 16).

(** 1034-1122: LPD_1MGeometry.from_quad_positions *)
Definition lpd_from_quad_positions_fl (quad_pos : list (Q * Q)) (unit : Q) (asic_gap panel_gap : option Q) : res geometry :=
  let ps := pixel_size_fl LPD in
  let conv := fdiv unit ps in
  let asic_gap_px := match asic_gap with None => 4%Q | Some g => fmul g conv end in
  let panel_gap_px := match panel_gap with None => 4%Q | Some g => fmul g conv end in
  let panel_width := fmul (fadd (fadd 256 asic_gap_px) panel_gap_px) ps in
  let panel_height := fmul (fadd (fadd 256 (fmul 7 asic_gap_px)) panel_gap_px) ps in
  let tile_width := fmul (fadd (inject_Z (frag_fs LPD)) asic_gap_px) ps in
  let tile_height := fmul (fadd (inject_Z (frag_ss LPD)) asic_gap_px) ps in
  let tile_size := fvmul (mk_vec (inject_Z (frag_fs LPD)) (inject_Z (frag_ss LPD)) 0) ps in
  mapM (fun p =>
    let quad := p / 4 in
    let* qp := py_index quad_pos quad in
    let quad_x := fmul (fst qp) unit in
    let quad_y := fmul (snd qp) unit in
    let* pa := py_index [-1; -1; 0; 0] (p mod 4) in
    let* pu := py_index [0; -1; -1; 0] (p mod 4) in
    let panel_x := fadd quad_x (fmul (inject_Z pa) panel_width) in
    let panel_y := fadd quad_y (fmul (inject_Z pu) panel_height) in
    Ok (map (fun a =>
          let up := if a <? 8 then - a else - (15 - a) in
          let across := if a <? 8 then -1 else 0 in
          let last := fvadd (fvadd (mk_vec panel_x panel_y 0)
                                   (fvmul (mk_vec (inject_Z across) 0 0) tile_width))
                            (fvmul (mk_vec 0 (inject_Z up) 0) tile_height) in
          mk_tile (fvsub last tile_size)
                  (fvmul (mk_vec 0 1 0) ps) (fvmul (mk_vec 1 0 0) ps)
                  (frag_ss LPD) (frag_fs LPD)) (zr 16)))
    (zr 16).

(** 1124-1185: LPD_1MGeometry.from_h5_file_and_quad_positions; the numbers in the
    file are those of [f] as they are. *)
Definition lpd_from_h5_fl (f : h5geom) (positions : list (Q * Q)) (unit : Q) : res geometry :=
  let ps := pixel_size_fl LPD in
  if negb (Nat.eqb (List.length positions) 4) then Err EAssertionError else
  mapM (fun qm =>
    let '(q, m) := qm in
    let* qp := py_index positions (q - 1) in
    let* mo := get_key (h5_module f q m) in
    mapM (fun t =>
      let* to := get_key (h5_tile f q m t) in
      let corner := fvmul (mk_vec (fadd (fadd (fst qp) (fst mo)) (fst to)) (fadd (fadd (snd qp) (snd mo)) (snd to)) 0) unit in
      let ss := fvmul (mk_vec 0 1 0) ps in
      let fs := fvmul (mk_vec 1 0 0) ps in
      Ok (mk_tile (fvsub (fvsub corner (fvmul ss (inject_Z (frag_ss LPD)))) (fvmul fs (inject_Z (frag_fs LPD))))
                  ss fs (frag_ss LPD) (frag_fs LPD)))
      (map (fun i => i + 1) (zr (Z.to_nat (n_modules LPD)))))
    quad_modules.

(** 1321: _pixel_shape of DSSC; [s3] is np.sqrt(3). *)
Definition dssc_pixel_shape_fl (s3 : Q) : Q * Q :=
  (fmul 1 (pixel_size_fl DSSC), fmul (fdiv (3 # 2) s3) (pixel_size_fl DSSC)).

(** 1332-1410: DSSC_1MGeometry.from_h5_file_and_quad_positions *)
Definition dssc_from_h5_fl (s3 : Q) (f : h5geom) (positions : list (Q * Q)) (unit : Q) : res geometry :=
  let ps := pixel_size_fl DSSC in
  if negb (Nat.eqb (List.length positions) 4) then Err EAssertionError else
  mapM (fun qm =>
    let '(q, m) := qm in
    let* qp := py_index positions (q - 1) in
    let* mo := get_key (h5_module f q m) in
    let* xo := py_index [-1; -1; 1; 1] (q - 1) in
    let* yo := py_index [1; 1; -1; -1] (q - 1) in
    mapM (fun t =>
      let* to := get_key (h5_tile f q m t) in
      let corner := fvmul (mk_vec (fadd (fadd (fst qp) (fst mo)) (fst to)) (fadd (fadd (snd qp) (snd mo)) (snd to)) 0) unit in
      let ss := fvdiv (fvmul (fvmul (mk_vec 0 (inject_Z yo) 0) ps) (3 # 2)) s3 in
      let fs := fvmul (mk_vec (inject_Z xo) 0 0) ps in
      let first := if xo =? -1 then fvsub corner (fvmul fs (inject_Z (frag_fs DSSC)))
                   else fvsub corner (fvmul ss (inject_Z (frag_ss DSSC))) in
      Ok (mk_tile first ss fs (frag_ss DSSC) (frag_fs DSSC)))
      [1; 2])
    quad_modules.
End Rounded.
