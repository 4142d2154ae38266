(** CrystFEL geometry files with rounded arithmetic: the computations of M_Crystfel
    as float64 makes them.  Numbers are written with all their digits, so that
    reading them gives the same float64; reading a file written by other means
    rounds its numbers. *)

From Coq Require Import QArith.
From Verif Require Import Base PyStr M_Cxi M_Geom M_GeomFloat M_Crystfel.

Local Open Scope string_scope.
Local Open Scope Z_scope.
Local Open Scope list_scope.

Section Rounded.
Variable fl : Q -> Q.

(** _pixel_shape: geometry2/__init__.py 135-138 (AGIPD and LPD), 1321 (DSSC) *)
Definition px_shape_fl (s3 : Q) (d : detector) : Q * Q :=
  match d with DSSC => dssc_pixel_shape_fl fl s3 | _ => pixel_shape_fl fl d end.

(** crystfel_fmt.py 54-78 with the template 31-42: frag_to_crystfel *)
Definition frag_to_crystfel_fl (t : tile) (p a : Z) (ss fs : Z * Z) (dims : list (Z * dim)) (ps : Q) : cffile :=
  let name := panel_name p a in
  let c := fvdiv fl (t_corner t) ps in
  map (fun nd => ((name ++ "/" ++ "dim" ++ str_of_int (fst nd))%string, dim_value p (snd nd))) dims ++
  [ ((name ++ "/" ++ "min_fs")%string, CInt (fst fs));
    ((name ++ "/" ++ "min_ss")%string, CInt (fst ss));
    ((name ++ "/" ++ "max_fs")%string, CInt (snd fs - 1));
    ((name ++ "/" ++ "max_ss")%string, CInt (snd ss - 1));
    ((name ++ "/" ++ "fs")%string, format_vec (fvdiv fl (t_fs t) ps));
    ((name ++ "/" ++ "ss")%string, format_vec (fvdiv fl (t_ss t) ps));
    ((name ++ "/" ++ "corner_x")%string, CNum (vx c));
    ((name ++ "/" ++ "corner_y")%string, CNum (vy c));
    ((name ++ "/" ++ "coffset")%string, CNum (vz c)) ].

(** crystfel_fmt.py 79-153 (template 6-28): write_crystfel_geom, the contents of the
    file as in M_Crystfel. *)
Definition write_crystfel_fl (d : detector) (g : geometry) (dims : list dim) (args : cf_args) : res cffile :=
  let numbered := zenum dims in
  let tile_dims := filter (fun nd => negb (is_frame (snd nd))) numbered in
  match filter (fun nd => is_frame (snd nd)) numbered with
  | [] => Err EValueError
  | fr :: frs =>
      let frame_dim := fst (List.last frs fr) in
      let panels := flat_map (fun mi => flat_map (fun ti =>
          let '(ss, fs) := tile_slice d (fst ti) in
          let ss := if existsb is_modno dims then ss
                    else let off := fst mi * mod_ss d in (fst ss + off, snd ss + off) in
          frag_to_crystfel_fl (snd ti) (fst mi) (fst ti) ss fs tile_dims (pixel_size_fl fl d)) (zenum (snd mi))) (zenum g) in
      let* groups := get_rigid_groups (n_modules d) (n_tiles d) 4 in
      Ok ([("data", CText (ca_data args))] ++
          match ca_mask args with None => [] | Some "" => [] | Some m => [("mask", CText m)] end ++
          [(("dim" ++ str_of_int frame_dim)%string, CText "%"); ("res", CNum (fdiv fl 1 (pixel_size_fl fl d)))] ++
          opt_line "photon_energy" CNum (ca_energy args) ++
          opt_line "clen" CNum (ca_clen args) ++
          opt_line "adu_per_eV" CNum (ca_adu args) ++
          groups ++ panels)
  end.

(** The number in the file as a float64. *)
Definition get_num_fl (d : cf_dict) (k : string) : res Q := let* q := get_num d k in Ok (fl q).

(** geometry2/__init__.py 33-41: GeometryFragment.from_panel_dict *)
Definition from_panel_dict_fl (d : cf_dict) : res tile :=
  let* r := get_num_fl d "res" in
  let* cx := get_num_fl d "cnx" in let* cy := get_num_fl d "cny" in let* cz := get_num_fl d "coffset" in
  let* sx := get_num_fl d "ssx" in let* sy := get_num_fl d "ssy" in let* sz := get_num_fl d "ssz" in
  let* fx := get_num_fl d "fsx" in let* fy := get_num_fl d "fsy" in let* fz := get_num_fl d "fsz" in
  let* max_ss := get_int d "max_ss" in let* min_ss := get_int d "min_ss" in
  let* max_fs := get_int d "max_fs" in let* min_fs := get_int d "min_fs" in
  Ok (mk_tile (fvdiv fl (mk_vec cx cy cz) r) (fvdiv fl (mk_vec sx sy sz) r) (fvdiv fl (mk_vec fx fy fz) r)
              (max_ss - min_ss + 1) (max_fs - min_fs + 1)).

(** geometry2/__init__.py 212-226: from_crystfel_geom *)
Definition from_crystfel_fl (d : detector) (f : cffile) : res geometry :=
  let gd := load_crystfel f in
  mapM (fun p => mapM (fun a =>
      match dict_get (panel_name p a) (cf_panels gd) with
      | None => Err EKeyError
      | Some pd => from_panel_dict_fl pd
      end) (zr (Z.to_nat (n_tiles d)))) (zr (Z.to_nat (n_modules d))).
End Rounded.
