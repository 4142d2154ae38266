(** Model of karabo_data/geometry2/crystfel_fmt.py and of reading such files:
    writing a geometry as a CrystFEL geometry file and reading it back.

    A file is the list of its "key = value" lines in order; comments and empty
    lines are left out.  Numbers are exact: Python writes floats so that reading
    them back gives the same float. *)

From Coq Require Import QArith.
From Verif Require Import Base PyStr M_Cxi M_Geom.

Set Implicit Arguments.
Local Open Scope string_scope.
Local Open Scope Z_scope.
Local Open Scope list_scope.

(** A value: text, an integer, a number, or a vector "+1.0x -0.1y +0.2z" with the
    last part optional. *)
Inductive cfval := CText (s : string) | CInt (z : Z) | CNum (q : Q) | CVec (x y : Q) (z : option Q).
Definition cffile := list (string * cfval).

(** Elements of the dims argument of write_crystfel_geom: 'frame', 'modno', 'ss',
    'fs' or an index. *)
Inductive dim := DFrame | DModno | DSs | DFs | DIndex (z : Z).

Definition is_frame (d : dim) : bool := match d with DFrame => true | _ => false end.
Definition is_modno (d : dim) : bool := match d with DModno => true | _ => false end.

(** ','.join(l) *)
Fixpoint py_join (sep : string) (l : list string) : string :=
  match l with
  | [] => ""
  | [x] => x
  | x :: r => (x ++ sep ++ py_join sep r)%string
  end.

(** crystfel_fmt.py 45-51: _crystfel_format_vec *)
Definition format_vec (v : vec) : cfval := CVec (vx v) (vy v) (if Qeq_bool (vz v) 0 then None else Some (vz v)).

(** crystfel_fmt.py 55: 'p{}a{}'.format(p, a) *)
Definition panel_name (p a : Z) : string := ("p" ++ str_of_int p ++ "a" ++ str_of_int a)%string.

(** crystfel_fmt.py 59-63: the value written for one dimension of panel p *)
Definition dim_value (p : Z) (v : dim) : cfval :=
  match v with
  | DModno => CInt p
  | DSs => CText "ss"
  | DFs => CText "fs"
  | DIndex z => CInt z
  | DFrame => CText "frame"
  end.

(** crystfel_fmt.py 54-78 with the template 31-42: frag_to_crystfel *)
Definition frag_to_crystfel (t : tile) (p a : Z) (ss fs : Z * Z) (dims : list (Z * dim)) (ps : Q) : cffile :=
  let name := panel_name p a in
  let c := vdiv (t_corner t) ps in
  map (fun nd => ((name ++ "/" ++ "dim" ++ str_of_int (fst nd))%string, dim_value p (snd nd))) dims ++
  [ ((name ++ "/" ++ "min_fs")%string, CInt (fst fs));
    ((name ++ "/" ++ "min_ss")%string, CInt (fst ss));
    ((name ++ "/" ++ "max_fs")%string, CInt (snd fs - 1));
    ((name ++ "/" ++ "max_ss")%string, CInt (snd ss - 1));
    ((name ++ "/" ++ "fs")%string, format_vec (vdiv (t_fs t) ps));
    ((name ++ "/" ++ "ss")%string, format_vec (vdiv (t_ss t) ps));
    ((name ++ "/" ++ "corner_x")%string, CNum (vx c));
    ((name ++ "/" ++ "corner_y")%string, CNum (vy c));
    ((name ++ "/" ++ "coffset")%string, CNum (vz c)) ].

(** numpy.array_split of a list into n parts: the first len % n parts have one
    element more. *)
Fixpoint take_parts {A} (sizes : list nat) (l : list A) : list (list A) :=
  match sizes with
  | [] => []
  | k :: r => firstn k l :: take_parts r (skipn k l)
  end.

Definition np_array_split {A} (l : list A) (n : Z) : res (list (list A)) :=
  if n <=? 0 then Err EValueError
  else
    let len := Z.of_nat (List.length l) in
    let each := len / n in
    let extras := len mod n in
    Ok (take_parts (repeat (Z.to_nat (each + 1)) (Z.to_nat extras) ++ repeat (Z.to_nat each) (Z.to_nat (n - extras))) l).

(** crystfel_fmt.py 155-175: get_rigid_groups *)
Definition get_rigid_groups (n_modules n_tiles nquads : Z) : res cffile :=
  let quads := py_join "," (map (fun q => ("q" ++ str_of_int q)%string) (zr (Z.to_nat nquads))) in
  let modules := py_join "," (map (fun p => ("p" ++ str_of_int p)%string) (zr (Z.to_nat n_modules))) in
  let rigid_group := flat_map (fun p => map (panel_name p) (zr (Z.to_nat n_tiles))) (zr (Z.to_nat n_modules)) in
  let* qs := np_array_split rigid_group nquads in
  let* ps := np_array_split rigid_group n_modules in
  Ok (map (fun ng => (("rigid_group_q" ++ str_of_int (fst ng))%string, CText (py_join "," (snd ng)))) (zenum qs) ++
      map (fun ng => (("rigid_group_p" ++ str_of_int (fst ng))%string, CText (py_join "," (snd ng)))) (zenum ps) ++
      [ ("rigid_group_collection_quadrants", CText quads); ("rigid_group_collection_asics", CText modules) ]).

(** The arguments of write_crystfel_geom other than the dimensions. *)
Record cf_args := mk_cf_args {
  ca_data : string;
  ca_mask : option string;
  ca_adu : option Q;
  ca_clen : option Q;
  ca_energy : option Q
}.

Definition opt_line {A} (k : string) (f : A -> cfval) (o : option A) : cffile :=
  match o with None => [] | Some v => [(k, f v)] end.

(** crystfel_fmt.py 79-153 (template 6-28): write_crystfel_geom, the contents of the
    file.  The version and the comments of the header are left out. *)
Definition write_crystfel (d : detector) (g : geometry) (dims : list dim) (args : cf_args) : res cffile :=
  let numbered := zenum dims in
  let tile_dims := filter (fun nd => negb (is_frame (snd nd))) numbered in
  match filter (fun nd => is_frame (snd nd)) numbered with
  | [] => Err EValueError
  | fr :: frs =>
      let frame_dim := fst (List.last frs fr) in
      let panels := flat_map (fun mi => flat_map (fun ti =>
          let '(ss, fs) := tile_slice d (fst ti) in
          let ss := if existsb is_modno dims then ss
                    else let off := fst mi * mod_ss d in (fst ss + off, snd ss + off) in
          frag_to_crystfel (snd ti) (fst mi) (fst ti) ss fs tile_dims (pixel_size d)) (zenum (snd mi))) (zenum g) in
      let* groups := get_rigid_groups (n_modules d) (n_tiles d) 4 in
      Ok ([("data", CText (ca_data args))] ++
          match ca_mask args with None => [] | Some "" => [] | Some m => [("mask", CText m)] end ++
          [(("dim" ++ str_of_int frame_dim)%string, CText "%"); ("res", CNum (1 / pixel_size d))] ++
          opt_line "photon_energy" CNum (ca_energy args) ++
          opt_line "clen" CNum (ca_clen args) ++
          opt_line "adu_per_eV" CNum (ca_adu args) ++
          groups ++ panels)
  end.

(** ** Reading

    load_crystfel_geometry belongs to the package cfelpyutils, which is not part
    of the repository.  It is modelled by the rules of the CrystFEL format: a line
    "panel/field = value" sets a field of a panel, which starts as a copy of the
    defaults when it is first named; a line "field = value" sets a default for the
    panels that come later; a line "rigid_group_NAME = a,b" makes a group.  Vectors
    set three numbers, and a missing part is 0. *)
Definition cf_dict := list (string * cfval).
Record cf_geom := mk_cf_geom {
  cf_default : cf_dict;
  cf_panels : list (string * cf_dict);
  cf_groups : list (string * list string)
}.

Definition set_vec (d : cf_dict) (p : string) (v : cfval) : cf_dict :=
  match v with
  | CVec x y z =>
      dict_set (p ++ "z")%string (CNum (match z with Some q => q | None => 0%Q end))
        (dict_set (p ++ "y")%string (CNum y) (dict_set (p ++ "x")%string (CNum x) d))
  | _ => d
  end.

Definition set_field (d : cf_dict) (field : string) (v : cfval) : cf_dict :=
  if String.eqb field "fs" then set_vec d "fs" v
  else if String.eqb field "ss" then set_vec d "ss" v
  else if String.eqb field "corner_x" then dict_set "cnx" v d
  else if String.eqb field "corner_y" then dict_set "cny" v d
  else dict_set field v d.

Definition text_of (v : cfval) : string := match v with CText s => s | _ => "" end.

Definition load_line (st : cf_geom) (l : string * cfval) : cf_geom :=
  let '(key, v) := l in
  match py_partition slash key with
  | (name, "", _) =>
      if starts_with "rigid_group" name
      then mk_cf_geom (cf_default st) (cf_panels st) (dict_set name (py_split "," (text_of v)) (cf_groups st))
      else mk_cf_geom (set_field (cf_default st) name v) (cf_panels st) (cf_groups st)
  | (name, _, field) =>
      let p := match dict_get name (cf_panels st) with Some p => p | None => cf_default st end in
      mk_cf_geom (cf_default st) (dict_set name (set_field p field v) (cf_panels st)) (cf_groups st)
  end.

Definition load_crystfel (f : cffile) : cf_geom := fold_left load_line f (mk_cf_geom [] [] []).

Definition get_num (d : cf_dict) (k : string) : res Q :=
  match dict_get k d with
  | Some (CNum q) => Ok q
  | Some (CInt z) => Ok (inject_Z z)
  | Some _ => Err ETypeError
  | None => Err EKeyError
  end.
Definition get_int (d : cf_dict) (k : string) : res Z :=
  match dict_get k d with
  | Some (CInt z) => Ok z
  | Some _ => Err ETypeError
  | None => Err EKeyError
  end.

(** geometry2/__init__.py 33-41: GeometryFragment.from_panel_dict *)
Definition from_panel_dict (d : cf_dict) : res tile :=
  let* r := get_num d "res" in
  let* cx := get_num d "cnx" in let* cy := get_num d "cny" in let* cz := get_num d "coffset" in
  let* sx := get_num d "ssx" in let* sy := get_num d "ssy" in let* sz := get_num d "ssz" in
  let* fx := get_num d "fsx" in let* fy := get_num d "fsy" in let* fz := get_num d "fsz" in
  let* max_ss := get_int d "max_ss" in let* min_ss := get_int d "min_ss" in
  let* max_fs := get_int d "max_fs" in let* min_fs := get_int d "min_fs" in
  Ok (mk_tile (vdiv (mk_vec cx cy cz) r) (vdiv (mk_vec sx sy sz) r) (vdiv (mk_vec fx fy fz) r)
              (max_ss - min_ss + 1) (max_fs - min_fs + 1)).

(** geometry2/__init__.py 212-226: from_crystfel_geom *)
Definition from_crystfel (d : detector) (f : cffile) : res geometry :=
  let gd := load_crystfel f in
  mapM (fun p => mapM (fun a =>
      match dict_get (panel_name p a) (cf_panels gd) with
      | None => Err EKeyError
      | Some pd => from_panel_dict pd
      end) (zr (Z.to_nat (n_tiles d)))) (zr (Z.to_nat (n_modules d))).
