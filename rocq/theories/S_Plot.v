(** Specification vocabulary for plots of detector geometry. *)
From Coq Require Import QArith Qabs.
From Verif Require Import Base M_Geom S_Geom M_Plot.
Local Open Scope Z_scope.
Local Open Scope list_scope.

(** Equality of points of the plot. *)
Definition peq (a b : pt) : Prop := (fst a == fst b /\ snd a == snd b)%Q.

(** Units of the axes: how many of them are a metre. *)
Definition per_metre (d : detector) (units : string) (k : Q) : Prop :=
  (units = "m"%string /\ k == 1)%Q \/ (units = "px"%string /\ k * pixel_size d == 1)%Q.

(** The point (a, b) of a tile, in steps along slow and fast scan, is drawn at p. *)
Definition drawn_at (k : Q) (t : tile) (a b : Q) (p : pt) : Prop :=
  peq p (k * vx (point t a b), k * vy (point t a b))%Q.

(** Tiles at the ends of the columns of up to eight tiles which make up a module. *)
Definition end_tile (d : detector) (t : Z) : Prop := t mod 8 = 0 \/ t mod 8 = 7 \/ t = n_tiles d - 1.

(** Points of the tile. *)
Definition on_tile (t : tile) (a b : Q) : Prop := (0 <= a <= inject_Z (t_ss_px t) /\ 0 <= b <= inject_Z (t_fs_px t))%Q.

(** p is in the convex hull of the corners of a polygon. *)
Inductive mix : list pt -> Q -> pt -> Prop :=
| mix_nil : mix [] 0 (0, 0)%Q
| mix_cons : forall c cs w ws p, (0 <= w)%Q -> mix cs ws p -> mix (c :: cs) (w + ws) (w * fst c + fst p, w * snd c + snd p)%Q.
Definition in_polygon (poly : list pt) (p : pt) : Prop := exists w q, mix poly w q /\ (w == 1)%Q /\ peq p q.

(** A polygon which shows the tile and nothing else. *)
Definition shows_tile (k : Q) (t : tile) (poly : list pt) : Prop :=
  forall p, in_polygon poly p <-> exists a b, on_tile t a b /\ drawn_at k t a b p.

(** Point (x, y) of the axes is in the cell which imshow draws for row i, column j
    of an image: the extent is divided evenly, row 0 is at the bottom with
    origin='lower' and at the top otherwise. *)
Definition in_cell (size : Z * Z) (extent : Q * Q * Q * Q) (lower : bool) (i j : Z) (x y : Q) : Prop :=
  let '(h, w) := size in
  let '(l, r, b, t) := extent in
  let row := if lower then i else h - 1 - i in
  0 <= i < h /\ 0 <= j < w /\
  (l + inject_Z j * (r - l) / inject_Z w <= x <= l + inject_Z (j + 1) * (r - l) / inject_Z w /\
   b + inject_Z row * (t - b) / inject_Z h <= y <= b + inject_Z (row + 1) * (t - b) / inject_Z h)%Q.

(** The plot shows value v at point (x, y) of its axes. *)
Definition shows {A} (p : dataplot A) (x y : Q) (v : A) : Prop :=
  exists i j, in_cell (dp_size p) (dp_extent p) (dp_lower p) i j x y /\ dp_image p i j = v.

(** Units of the axes of an image: the size of a pixel. *)
Definition per_pixel (d : detector) (units : string) (k : Q) : Prop :=
  (units = "px"%string /\ k = 1%Q) \/ (units = "m"%string /\ k = pixel_size d).

(** The first corner of a tile, or the one opposite to it. *)
Definition corner (t : tile) (opposite : bool) : vec :=
  if opposite then point t (inject_Z (t_ss_px t)) (inject_Z (t_fs_px t)) else point t 0 0.
(** Arrow [a] shows, enlarged by [scale], how point v moves to w. *)
Definition shows_move (scale : Q) (v w : vec) (a : arrow) : Prop :=
  peq (ar_from a) (vx v, vy v) /\ peq (ar_by a) (scale * (vx w - vx v), scale * (vy w - vy v))%Q.
Definition moved (v w : vec) : Prop := ~ (vx v == vx w /\ vy v == vy w)%Q.

(** Data pixel (s, f) of tile t of module m is the one seen in cell (y, x) of the
    grid: tiles which come later cover earlier ones. *)
Definition seen (px : Q * Q) (d : detector) (g : geometry) (m t s f y x : Z) : Prop :=
  covers px d g m t s f y x /\
  forall m' t' s' f', covers px d g m' t' s' f' y x -> (m' = m /\ t' = t) \/ after m t m' t'.

(** Middle of cell z of the grid, in units of the axes. *)
Definition mid (k : Q) (z : Z) : Q := ((inject_Z z + (1 # 2)) * k)%Q.
