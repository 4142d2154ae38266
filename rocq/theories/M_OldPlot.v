(** Plots and the printed form of the deprecated LPD geometry, karabo_data/geometry.py.

    A plot is modelled by what is drawn on the axes, in the units of the axes: pixels of the image, x to the right and y
    downwards.  Colours, line widths and fonts are left out.  Numbers are exact rationals as in M_OldGeom. *)
From Coq Require Import QArith Qround.
From Verif Require Import Base M_Cxi M_OldGeom.
Local Open Scope string_scope.
Local Open Scope Z_scope.
Local Open Scope list_scope.

(** ** plot_data *)
Record data_plot (A : Type) := mk_data_plot {
  dpl_image : Z -> Z -> A;
  dpl_size : Z * Z;                       (* rows and columns *)
  dpl_cross : list ((Z * Z) * (Z * Z))    (* hlines and vlines: ends (x, y) *)
}.
Arguments mk_data_plot {A} _ _ _. Arguments dpl_image {A} _. Arguments dpl_size {A} _. Arguments dpl_cross {A} _.

(** 197-198, 219-220: hlines and vlines through the centre *)
Definition centre_cross (c : Z * Z) (r : Z) : list ((Z * Z) * (Z * Z)) :=
  [((fst c - r, snd c), (fst c + r, snd c)); ((fst c, snd c - r), (fst c, snd c + r))].

(** 170-199: plot_data.  [extra] is data.shape[:-3]: matplotlib draws arrays with two dimensions, or with three of which
    the last has 3 or 4 entries; others are a TypeError. *)
Definition plot_data {A} (nan : A) (floating : bool) (g : frag) (extra : list Z) (shape : Z * Z * Z) (data : Z -> Z -> Z -> A)
  : res (data_plot A) :=
  let* r := position_all_modules nan floating g shape data in
  let '(out, size, centre) := r in
  match extra with
  | [] => Ok (mk_data_plot out size (centre_cross centre 20))
  | [_] => if (snd size =? 3) || (snd size =? 4) then Err ENotImplementedError (* an image of colours, not modelled *) else Err ETypeError
  | _ => Err ETypeError
  end.

(** ** inspect *)
Record layout_plot := mk_layout_plot {
  lp_size : Z * Z;                        (* rows and columns *)
  lp_filled : Z -> Z -> bool;             (* cells in the colour of tiles; the others are white *)
  lp_cross : list ((Z * Z) * (Z * Z));
  lp_texts : list ((Z * Z) * string);     (* their top left corners (x, y) *)
  lp_title : string
}.

(** 225, 230: position // self.pixel_size + centre *)
Definition at_pixel (centre : Z * Z) (position : Q * Q) : Z * Z :=
  (to_px (fst position) + fst centre, to_px (snd position) + snd centre).

(** 233: bg[yt : yt + 32, xt : xt + 128] = colour; a slice which is too long is cut. *)
Definition in_slice (n a len i : Z) : bool := (slice_bound n a <=? i) && (i <? slice_bound n (a + len)).
Definition fill (size : Z * Z) (at_ : Z * Z) (bg : Z -> Z -> bool) : Z -> Z -> bool :=
  fun y x => (in_slice (fst size) (snd at_) 32 y && in_slice (snd size) (fst at_) 128 x) || bg y x.

(** 228-236: one tile of a module: cells filled so far, and texts *)
Definition inspect_tile (g : frag) (size centre : Z * Z) (q m : Z) (acc : (Z -> Z -> bool) * list ((Z * Z) * string)) (t : Z)
  : res ((Z -> Z -> bool) * list ((Z * Z) * string)) :=
  let* position := find_offset g [qname q; mname m; tname t] in
  let p := at_pixel centre position in
  Ok (fill size p (fst acc), if z_in t [1; 8; 9] then snd acc ++ [(p, str_of_int t)] else snd acc).
(** 224-236: one module *)
Definition inspect_module (g : frag) (size centre : Z * Z) (acc : (Z -> Z -> bool) * list ((Z * Z) * string)) (qm : Z * Z)
  : res ((Z -> Z -> bool) * list ((Z * Z) * string)) :=
  let* position := find_offset g [qname (fst qm); mname (snd qm)] in
  let name := (qname (fst qm) ++ mname (snd qm))%string in
  foldM (inspect_tile g size centre (fst qm) (snd qm)) (fst acc, snd acc ++ [(at_pixel centre position, name)]) (py_range 1 17 1).

(** 201-240: inspect.  223: product(range(1, 5), range(1, 5)) *)
Definition quads_modules : list (Z * Z) := flat_map (fun q => map (pair q) (py_range 1 5 1)) (py_range 1 5 1).
Definition inspect (g : frag) : res layout_plot :=
  let* dims := plotting_dimensions g in
  let '(size_xy, centre) := dims in
  let size := (snd size_xy, fst size_xy) in
  let* r := foldM (inspect_module g size centre) (fun _ _ => false, []) quads_modules in
  Ok (mk_layout_plot size (fst r) (centre_cross centre 100) (snd r) "LPD detector geometry").

(** ** __str__ *)
(** str.splitlines, for breaks within ASCII: \n, \r, \r\n, \v, \f and \x1c to \x1e. *)
Definition is_break (c : ascii) : bool := let n := Z.of_nat (nat_of_ascii c) in z_in n [10; 11; 12; 13; 28; 29; 30].
Fixpoint splitlines_from (line : string) (s : string) : list string :=
  match s with
  | EmptyString => if String.eqb line "" then [] else [line]
  | String c r =>
      if is_break c
      then line :: match r with
                   | String c' r' => if Ascii.eqb c (ascii_of_nat 13) && Ascii.eqb c' (ascii_of_nat 10) then splitlines_from "" r' else splitlines_from "" r
                   | EmptyString => []
                   end
      else splitlines_from (line ++ String c "") r
  end.
Definition splitlines (s : string) : list string := splitlines_from "" s.
(** line.strip() == '', for white space within ASCII *)
Fixpoint blank (s : string) : bool :=
  match s with
  | EmptyString => true
  | String c r => let n := Z.of_nat (nat_of_ascii c) in (z_in n [9; 10; 11; 12; 13; 28; 29; 30; 31; 32]) && blank r
  end.
(** indent(text, '  ').splitlines(): textwrap.indent puts the prefix before every line which is not blank. *)
Definition indent_lines (text : string) : list string := map (fun l => if blank l then l else ("  " ++ l)%string) (splitlines text).

Definition newline : string := String (ascii_of_nat 10) "".
(** 50-58: _str_lines and __str__.  [show] is what format gives for an offset. *)
Fixpoint str_lines (show : Q * Q -> string) (g : frag) : list string :=
  match g with
  | Frag _ children =>
      let subs := map (fun kv => (fst kv, (fr_offset (snd kv), str_lines show (snd kv)))) children in
      flat_map (fun ks => (fst ks ++ ": " ++ show (fst (snd ks)))%string :: indent_lines (String.concat newline (snd (snd ks))))
               (isort (fun a b => String.leb (fst a) (fst b)) subs)
  end.
Definition frag_str (show : Q * Q -> string) (g : frag) : string := String.concat newline (str_lines show g).
