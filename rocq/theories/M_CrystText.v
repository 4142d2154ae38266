(** Model of the text of CrystFEL geometry files (karabo_data/geometry2/crystfel_fmt.py).  A line is a string without its
    newline; [print_lines] puts the newlines in. *)

From Coq Require Import QArith.
From Verif Require Import Base PyStr M_Cxi M_Geom M_Crystfel M_Repr M_InfoText.

Set Implicit Arguments.
Local Open Scope string_scope.
Local Open Scope Z_scope.
Local Open Scope list_scope.

(** '\n'.join(l) followed by a newline: an empty list makes an empty line. *)
Definition joined (l : list string) : list string := match l with [] => [""] | _ => l end.

Section Text.
(** Python: '{}'.format of a float. *)
Variable num_text : Q -> string.

(** Python: '{:+}'.format of a float; a zero with a minus sign is not modelled. *)
Definition plus_text (q : Q) : string := if Qle_bool 0 q then ("+" ++ num_text q)%string else num_text q.

(** crystfel_fmt.py 45-51: _crystfel_format_vec *)
Definition vec_text (v : vec) : string :=
  (plus_text (vx v) ++ "x " ++ plus_text (vy v) ++ "y" ++ (if Qeq_bool (vz v) 0 then "" else " " ++ plus_text (vz v) ++ "z"))%string.

(** crystfel_fmt.py 59-63: the value of a dimension *)
Definition dim_text (p : Z) (v : dim) : string :=
  match v with
  | DModno => int_repr p
  | DSs => "ss"
  | DFs => "fs"
  | DIndex z => int_repr z
  | DFrame => "frame"
  end.

(** crystfel_fmt.py 54-78 with the template 31-42: frag_to_crystfel *)
Definition panel_lines (t : tile) (p a : Z) (ss fs : Z * Z) (dims : list (Z * dim)) (ps : Q) : list string :=
  let name := panel_name p a in
  let c := vdiv (t_corner t) ps in
  "" ::
  joined (map (fun nd => (name ++ "/dim" ++ str_of_int (fst nd) ++ " = " ++ dim_text p (snd nd))%string) dims) ++
  [ (name ++ "/min_fs = " ++ int_repr (fst fs))%string;
    (name ++ "/min_ss = " ++ int_repr (fst ss))%string;
    (name ++ "/max_fs = " ++ int_repr (snd fs - 1))%string;
    (name ++ "/max_ss = " ++ int_repr (snd ss - 1))%string;
    (name ++ "/fs = " ++ vec_text (vdiv (t_fs t) ps))%string;
    (name ++ "/ss = " ++ vec_text (vdiv (t_ss t) ps))%string;
    (name ++ "/corner_x = " ++ num_text (vx c))%string;
    (name ++ "/corner_y = " ++ num_text (vy c))%string;
    (name ++ "/coffset = " ++ num_text (vz c))%string ].

(** crystfel_fmt.py 155-175: get_rigid_groups *)
Definition group_lines (n_modules n_tiles nquads : Z) : res (list string) :=
  let quads := py_join "," (map (fun q => ("q" ++ str_of_int q)%string) (zr (Z.to_nat nquads))) in
  let modules := py_join "," (map (fun p => ("p" ++ str_of_int p)%string) (zr (Z.to_nat n_modules))) in
  let rigid_group := flat_map (fun p => map (panel_name p) (zr (Z.to_nat n_tiles))) (zr (Z.to_nat n_modules)) in
  let* qs := np_array_split rigid_group nquads in
  let* ps := np_array_split rigid_group n_modules in
  Ok ("" :: map (fun ng => ("rigid_group_q" ++ str_of_int (fst ng) ++ " = " ++ py_join "," (snd ng))%string) (zenum qs) ++
      "" :: map (fun ng => ("rigid_group_p" ++ str_of_int (fst ng) ++ " = " ++ py_join "," (snd ng))%string) (zenum ps) ++
      [ ""; ("rigid_group_collection_quadrants = " ++ quads)%string; ("rigid_group_collection_asics = " ++ modules)%string; "" ]).

(** crystfel_fmt.py 87-102: a line, or a comment if there is no value *)
Definition set_me (key : string) (o : option Q) : string :=
  match o with
  | None => ("; " ++ key ++ " = SET ME")%string
  | Some q => (key ++ " = " ++ num_text q)%string
  end.

(** crystfel_fmt.py 135-138: the lines of paths *)
Definition path_lines (args : cf_args) : list string :=
  map (fun ij => (fst ij ++ " = " ++ snd ij ++ " ;")%string)
    (("data", ca_data args) :: match ca_mask args with None => [] | Some "" => [] | Some m => [("mask", m)] end).

(** crystfel_fmt.py 6-28, 140-149: the header *)
Definition header_lines (version : string) (args : cf_args) (frame_dim : string) (resolution : Q) : list string :=
  [ ("; AGIPD-1M geometry file written by karabo_data " ++ version)%string;
    "; You may need to edit this file to add:";
    "; - data and mask locations in the file";
    "; - mask_good & mask_bad values to interpret the mask";
    "; - adu_per_eV & photon_energy";
    "; - clen (detector distance)";
    ";";
    "; See: http://www.desy.de/~twhite/crystfel/manual-crystfel_geometry.html";
    "" ] ++
  joined (path_lines args) ++
  [ frame_dim;
    ("res = " ++ num_text resolution ++ " ; pixels per metre")%string;
    "";
    "; Beam energy in eV";
    set_me "photon_energy" (ca_energy args);
    "";
    "; Camera length, aka detector distance";
    set_me "clen" (ca_clen args);
    "";
    "; Analogue Digital Units per eV";
    set_me "adu_per_eV" (ca_adu args) ].

(** crystfel_fmt.py 79-153: write_crystfel_geom, the text of the file *)
Definition geom_text (version : string) (d : detector) (g : geometry) (dims : list dim) (args : cf_args) : res string :=
  let numbered := zenum dims in
  let tile_dims := filter (fun nd => negb (is_frame (snd nd))) numbered in
  match filter (fun nd => is_frame (snd nd)) numbered with
  | [] => Err EValueError
  | fr :: frs =>
      let frame_dim := ("dim" ++ str_of_int (fst (List.last frs fr)) ++ " = %")%string in
      let panels := flat_map (fun mi => flat_map (fun ti =>
          let '(ss, fs) := tile_slice d (fst ti) in
          let ss := if existsb is_modno dims then ss
                    else let off := fst mi * mod_ss d in (fst ss + off, snd ss + off) in
          panel_lines (snd ti) (fst mi) (fst ti) ss fs tile_dims (pixel_size d)) (zenum (snd mi))) (zenum g) in
      let* groups := group_lines (n_modules d) (n_tiles d) 4 in
      Ok (print_lines (header_lines version args frame_dim (1 / pixel_size d) ++ groups ++ panels))
  end.
End Text.
