(** The deprecated LPD geometry, karabo_data/geometry.py.

    Numbers are exact rationals (the code works with float64; M_OldFloat models the rounding errors); arrays are functions of
    their indexes with an explicit shape, and leading dimensions of the image data are treated elementwise, as in
    M_Geom.  Plots and __str__ are in M_OldPlot. *)
From Coq Require Import QArith Qround.
From Verif Require Import Base M_Cxi.
Local Open Scope string_scope.
Local Open Scope Z_scope.
Local Open Scope list_scope.

(** ** Fragments *)
(** geometry.py 46-49: an offset (x, y) in metres, and children by name. *)
Inductive frag := Frag (offset : Q * Q) (children : list (string * frag)).
Definition fr_offset (g : frag) : Q * Q := match g with Frag o _ => o end.
Definition fr_children (g : frag) : list (string * frag) := match g with Frag _ c => c end.

(** Addition of two numpy arrays (x, y). *)
Definition qadd2 (a b : Q * Q) : Q * Q := (fst a + fst b, snd a + snd b)%Q.

(** geometry.py 61-65: [find_offset]; KeyError for a name which is not there. *)
Fixpoint find_offset (g : frag) (parts : list string) : res (Q * Q) :=
  match parts with
  | [] => Ok (fr_offset g)
  | n :: rest =>
      match dict_get n (fr_children g) with
      | None => Err EKeyError
      | Some child => let* o := find_offset child rest in Ok (qadd2 (fr_offset g) o)
      end
  end.

(** geometry.py 67-73: [iter_leaf_paths].  The children are visited in the order of their names. *)
Fixpoint iter_leaf_paths (g : frag) : list (list string) :=
  match g with
  | Frag _ children =>
      let subs := map (fun kv => (fst kv, iter_leaf_paths (snd kv))) children in
      match subs with
      | [] => [[]]
      | _ => flat_map (fun ks => map (cons (fst ks)) (snd ks)) (isort (fun a b => String.leb (fst a) (fst b)) subs)
      end
  end.

(** ** Reading *)
(** A group of an HDF5 file: its dataset 'Position', if there is one, and the groups in it. *)
Inductive hgroup := HGroup (position : option (Q * Q)) (groups : list (string * hgroup)).

(** geometry.py 75-82: [from_h5_group].  The groups inside are read with the default unit, whatever unit was given.  A
    group without 'Position' is a KeyError. *)
Definition default_unit : Q := 1 # 1000.
Fixpoint from_h5_group (unit : Q) (g : hgroup) : res frag :=
  match g with
  | HGroup position groups =>
      let* children := (fix go (l : list (string * hgroup)) : res (list (string * frag)) :=
          match l with
          | [] => Ok []
          | (n, h) :: r => let* c := from_h5_group default_unit h in let* cs := go r in Ok ((n, c) :: cs)
          end) groups in
      match position with
      | None => Err EKeyError
      | Some p => Ok (Frag (fst p * unit, snd p * unit)%Q children)
      end
  end.

(** What is inside a quadrant of the file: a group, or a dataset (which has no items(): AttributeError). *)
Inductive hitem := HG (g : hgroup) | HD.

(** 'Q%d' % n, 'M%d' % n, "T%02d" % n. *)
Definition qname (n : Z) : string := ("Q" ++ str_of_int n)%string.
Definition mname (n : Z) : string := ("M" ++ str_of_int n)%string.
Definition tname (n : Z) : string := ("T" ++ (if (n <? 10)%Z then "0" else "") ++ str_of_int n)%string.

(** geometry.py 88-99: [from_h5_file_and_quad_positions]; [n] is the number of the quadrant. *)
Fixpoint quadrants (file : list (string * list (string * hitem))) (unit : Q) (n : Z) (positions : list (Q * Q)) : res (list (string * frag)) :=
  match positions with
  | [] => Ok []
  | p :: rest =>
      match dict_get (qname n) file with
      | None => Err EKeyError
      | Some items =>
          let* modules := mapM (fun it => match snd it with
                                          | HG g => let* fr := from_h5_group unit g in Ok (fst it, fr)
                                          | HD => Err EAttributeError
                                          end) items in
          let* qs := quadrants file unit (n + 1) rest in
          Ok ((qname n, Frag (fst p * unit, snd p * unit)%Q modules) :: qs)
      end
  end.
Definition from_h5_file_and_quad_positions (file : list (string * list (string * hitem))) (positions : list (Q * Q)) (unit : Q) : res frag :=
  let* qs := quadrants file unit 1 positions in Ok (Frag (0, 0)%Q qs).

(** ** Tiles of a module *)
(** geometry.py 11-43: [splitChannelDataIntoTiles] of a module of 256 by 256 pixels: np.split into 8 parts by rows, each into 2
    parts by columns, reshaped to 16 tiles of 32 by 128. *)
Definition split_channel {A} (a : Z -> Z -> A) (clockwise : bool) : list (Z -> Z -> A) :=
  let by_rows := map (fun v r c => a (32 * v + r) c) [0; 1; 2; 3; 4; 5; 6; 7] in
  let tiles := flat_map (fun h => map (fun part r c => part r (128 * h + c)) by_rows) [0; 1] in
  if clockwise
  then flat_map (fun k => match nth_error tiles k with Some t => [t] | None => [] end)
                ([7; 6; 5; 4; 3; 2; 1; 0]%nat ++ [8; 9; 10; 11; 12; 13; 14; 15]%nat)
  else tiles.

(** ** Assembling images *)
(** geometry.py 86: metres per pixel; [q // self.pixel_size]. *)
Definition old_pixel_size : Q := 5 # 10000.
Definition to_px (q : Q) : Z := Qfloor (q / old_pixel_size).

Definition qmin2 (a b : Q) : Q := if Qle_bool a b then a else b.
Definition qmax2 (a b : Q) : Q := if Qle_bool b a then a else b.

(** geometry.py 146-168: [_plotting_dimensions]: ((size_x, size_y), (centre_x, centre_y)). *)
Definition plotting_dimensions (g : frag) : res ((Z * Z) * (Z * Z)) :=
  let* offs := mapM (find_offset g) (iter_leaf_paths g) in
  let xs := map fst offs in
  let ys := map snd offs in
  let min_x := to_px (fold_left qmin2 xs 0%Q) - 20 in
  let max_x := to_px (fold_left qmax2 xs 0%Q) + 128 + 20 in
  let min_y := to_px (fold_left qmin2 ys 0%Q) - 20 in
  let max_y := to_px (fold_left qmax2 ys 0%Q) + 32 + 20 in
  Ok ((max_x - min_x, max_y - min_y), (- min_x, - min_y)).

(** numpy: where the slice [a : a + len] of an axis of length n starts if it has exactly [len] entries; otherwise assigning
    a block of [len] entries (more than one) to it is a ValueError. *)
Definition slice_bound (n a : Z) : Z := if a <? 0 then Z.max 0 (a + n) else Z.min a n.
Definition block_start (n a len : Z) : res Z :=
  if slice_bound n (a + len) - slice_bound n a =? len then Ok (slice_bound n a) else Err EValueError.

(** geometry.py 134-142: one tile. *)
Definition place_old {A} (g : frag) (size centre : Z * Z) (path : list string) (tile : Z -> Z -> A) (out : Z -> Z -> A)
  : res (Z -> Z -> A) :=
  let* position := find_offset g path in
  let x0 := to_px (fst position) + fst centre in
  let y0 := to_px (snd position) + snd centre in
  let* ys := block_start (snd size) y0 32 in
  let* xs := block_start (fst size) x0 128 in
  Ok (fun y x => if (ys <=? y) && (y <? ys + 32) && (xs <=? x) && (x <? xs + 128)
                 then tile (31 - (y - ys)) (127 - (x - xs)) else out y x).

(** geometry.py 126-133: the tiles of all modules, in order, with their paths. *)
Definition all_tiles {A} (data : Z -> Z -> Z -> A) : list (list string * (Z -> Z -> A)) :=
  flat_map (fun c => combine (map (fun t => [qname (c / 4 + 1); mname (c mod 4 + 1); tname t]) (py_range 1 17 1))
                             (split_channel (data c) true))
           (py_range 0 16 1).

(** geometry.py 101-144: [position_all_modules]: the image with its shape (size_y, size_x), and the centre (x, y).  [floating]
    says whether the data type can hold NaN: filling an array of integers with NaN is a ValueError. *)
Definition position_all_modules {A} (nan : A) (floating : bool) (g : frag) (shape : Z * Z * Z) (data : Z -> Z -> Z -> A)
  : res ((Z -> Z -> A) * (Z * Z) * (Z * Z)) :=
  let '(n, ss, fs) := shape in
  if negb ((n =? 16) && (ss =? 256) && (fs =? 256)) then Err EAssertionError else
  let* dims := plotting_dimensions g in
  let '(size, centre) := dims in
  if negb floating then Err EValueError else
  let* out := foldM (fun out pt => place_old g size centre (fst pt) (snd pt) out) (fun _ _ => nan) (all_tiles data) in
  Ok (out, (snd size, fst size), centre).
