(** The deprecated LPD geometry (karabo_data/geometry.py) with rounded arithmetic: the computations of M_OldGeom as float64
    makes them.  [fl] rounds an exact result to a floating point number, as in M_GeomFloat.  Pixel numbers are whole and
    small, so that operations on them are exact. *)
From Coq Require Import QArith Qround.
From Verif Require Import Base M_Cxi M_OldGeom.
Local Open Scope string_scope.
Local Open Scope Z_scope.
Local Open Scope list_scope.

Section Rounded.
Variable fl : Q -> Q.

(** Addition of two numpy arrays (x, y), and multiplication by a number. *)
Definition qadd2_fl (a b : Q * Q) : Q * Q := (fl (fst a + fst b), fl (snd a + snd b))%Q.
Definition qscale_fl (a : Q * Q) (u : Q) : Q * Q := (fl (fst a * u), fl (snd a * u))%Q.

(** geometry.py 61-65: [find_offset] *)
Fixpoint find_offset_fl (g : frag) (parts : list string) : res (Q * Q) :=
  match parts with
  | [] => Ok (fr_offset g)
  | n :: rest =>
      match dict_get n (fr_children g) with
      | None => Err EKeyError
      | Some child => let* o := find_offset_fl child rest in Ok (qadd2_fl (fr_offset g) o)
      end
  end.

(** geometry.py 75-82: [from_h5_group]; the default unit is the float64 for 0.001. *)
Fixpoint from_h5_group_fl (unit : Q) (g : hgroup) : res frag :=
  match g with
  | HGroup position groups =>
      let* children := (fix go (l : list (string * hgroup)) : res (list (string * frag)) :=
          match l with
          | [] => Ok []
          | (n, h) :: r => let* c := from_h5_group_fl (fl default_unit) h in let* cs := go r in Ok ((n, c) :: cs)
          end) groups in
      match position with
      | None => Err EKeyError
      | Some p => Ok (Frag (qscale_fl p unit) children)
      end
  end.

(** geometry.py 88-99: [from_h5_file_and_quad_positions] *)
Fixpoint quadrants_fl (file : list (string * list (string * hitem))) (unit : Q) (n : Z) (positions : list (Q * Q)) : res (list (string * frag)) :=
  match positions with
  | [] => Ok []
  | p :: rest =>
      match dict_get (qname n) file with
      | None => Err EKeyError
      | Some items =>
          let* modules := mapM (fun it => match snd it with
                                          | HG g => let* fr := from_h5_group_fl unit g in Ok (fst it, fr)
                                          | HD => Err EAttributeError
                                          end) items in
          let* qs := quadrants_fl file unit (n + 1) rest in
          Ok ((qname n, Frag (qscale_fl p unit) modules) :: qs)
      end
  end.
Definition from_h5_file_and_quad_positions_fl (file : list (string * list (string * hitem))) (positions : list (Q * Q)) (unit : Q) : res frag :=
  let* qs := quadrants_fl file unit 1 positions in Ok (Frag (0, 0)%Q qs).

(** geometry.py 86: [q // self.pixel_size].  numpy's floor_divide of floats subtracts the remainder, which is exact, and
    rounds the quotient to the whole number it is close to: the floor of the exact quotient of the two floats. *)
Definition to_px_fl (q : Q) : Z := Qfloor (q / fl old_pixel_size).

(** geometry.py 146-168: [_plotting_dimensions] *)
Definition plotting_dimensions_fl (g : frag) : res ((Z * Z) * (Z * Z)) :=
  let* offs := mapM (find_offset_fl g) (iter_leaf_paths g) in
  let xs := map fst offs in
  let ys := map snd offs in
  let min_x := to_px_fl (fold_left qmin2 xs 0%Q) - 20 in
  let max_x := to_px_fl (fold_left qmax2 xs 0%Q) + 128 + 20 in
  let min_y := to_px_fl (fold_left qmin2 ys 0%Q) - 20 in
  let max_y := to_px_fl (fold_left qmax2 ys 0%Q) + 32 + 20 in
  Ok ((max_x - min_x, max_y - min_y), (- min_x, - min_y)).

(** geometry.py 134-142: one tile. *)
Definition place_old_fl {A} (g : frag) (size centre : Z * Z) (path : list string) (tile : Z -> Z -> A) (out : Z -> Z -> A)
  : res (Z -> Z -> A) :=
  let* position := find_offset_fl g path in
  let x0 := to_px_fl (fst position) + fst centre in
  let y0 := to_px_fl (snd position) + snd centre in
  let* ys := block_start (snd size) y0 32 in
  let* xs := block_start (fst size) x0 128 in
  Ok (fun y x => if (ys <=? y) && (y <? ys + 32) && (xs <=? x) && (x <? xs + 128)
                 then tile (31 - (y - ys)) (127 - (x - xs)) else out y x).

(** geometry.py 101-144: [position_all_modules] *)
Definition position_all_modules_fl {A} (nan : A) (floating : bool) (g : frag) (shape : Z * Z * Z) (data : Z -> Z -> Z -> A)
  : res ((Z -> Z -> A) * (Z * Z) * (Z * Z)) :=
  let '(n, ss, fs) := shape in
  if negb ((n =? 16) && (ss =? 256) && (fs =? 256)) then Err EAssertionError else
  let* dims := plotting_dimensions_fl g in
  let '(size, centre) := dims in
  if negb floating then Err EValueError else
  let* out := foldM (fun out pt => place_old_fl g size centre (fst pt) (snd pt) out) (fun _ _ => nan) (all_tiles data) in
  Ok (out, (snd size, fst size), centre).
End Rounded.
