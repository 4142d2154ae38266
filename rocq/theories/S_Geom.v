(** Specification of detector geometry, independent of the way the code computes. *)

From Coq Require Import QArith Qround Qabs.
From Verif Require Import Base M_Geom.

Local Open Scope Z_scope.
Local Open Scope list_scope.

(** Equality of points, as rational numbers. *)
Definition veq (a b : vec) : Prop := (vx a == vx b /\ vy a == vy b /\ vz a == vz b)%Q.

(** The tile with index t of module m. *)
Definition tile_at (g : geometry) (m t : Z) : option tile :=
  if (0 <=? m) && (0 <=? t)
  then match nth_error g (Z.to_nat m) with
       | Some md => nth_error md (Z.to_nat t)
       | None => None
       end
  else None.

(** Pixel (s, f) exists in a tile of this detector. *)
Definition in_tile (d : detector) (s f : Z) : Prop := 0 <= s < frag_ss d /\ 0 <= f < frag_fs d.
(** Pixel (ss, fs) exists in the data of a module. *)
Definition in_module (d : detector) (ss fs : Z) : Prop := 0 <= ss < mod_ss d /\ 0 <= fs < mod_fs d.

(** Where in the data of its module the pixel (s, f) of tile t is stored.
    AGIPD: eight tiles one after the other along slow scan.
    LPD: tiles 0-7 in the first half along fast scan, from the end backwards, and
    tiles 8-15 in the second half, from the start.
    DSSC: two tiles side by side along fast scan. *)
Definition data_pixel (d : detector) (t s f : Z) : Z * Z :=
  match d with
  | AGIPD => (64 * t + s, f)
  | LPD => if t <? 8 then (32 * (7 - t) + s, f) else (32 * (t - 8) + s, 128 + f)
  | DSSC => (s, 256 * t + f)
  end.

(** The point of a tile that is [s] pixels along slow scan and [f] along fast scan
    from its first corner. *)
Definition point (t : tile) (s f : Q) : vec :=
  mk_vec (vx (t_corner t) + s * vx (t_ss t) + f * vx (t_fs t))
         (vy (t_corner t) + s * vy (t_ss t) + f * vy (t_fs t))
         (vz (t_corner t) + s * vz (t_ss t) + f * vz (t_fs t)).

(** No more modules and tiles than the detector has, and tiles of its size. *)
Definition fits (d : detector) (g : geometry) : Prop :=
  Z.of_nat (List.length g) <= 16 /\
  forall md, In md g -> Z.of_nat (List.length md) <= n_tiles d /\
  forall tl, In tl md -> t_ss_px tl = frag_ss d /\ t_fs_px tl = frag_fs d.

(** All the modules and tiles of the detector. *)
Definition full (d : detector) (g : geometry) : Prop :=
  fits d g /\ Z.of_nat (List.length g) = 16 /\ forall md, In md g -> Z.of_nat (List.length md) = n_tiles d.

(** Reference point of pixel (s, f), in steps along its tile: rows with odd number
    are shifted by half a pixel in the hexagonal DSSC. *)
Definition pixel_origin (d : detector) (s f : Z) : Q * Q :=
  match d with
  | DSSC => (inject_Z s, inject_Z f - if Z.odd s then 1 # 2 else 0)%Q
  | _ => (inject_Z s, inject_Z f)
  end.

(** Corners of a pixel relative to its reference point: unit squares for AGIPD and
    LPD; hexagons for DSSC, 4/3 of a row high. *)
Definition outline (d : detector) : list (Q * Q) :=
  match d with
  | DSSC => [ (0, 1 # 2); (1 # 3, 1); (1, 1); (4 # 3, 1 # 2); (1, 0); (1 # 3, 0) ]%Q
  | _ => [ (0, 0); (1, 0); (1, 1); (0, 1) ]%Q
  end.

Definition corner_point (d : detector) (t : tile) (s f : Z) (o : Q * Q) : vec :=
  let '(a, b) := pixel_origin d s f in point t (a + fst o) (b + snd o).

Definition vsum (l : list vec) : vec := fold_right vadd vzero l.

(** ** Pixel grids *)

(** Is the integer [z] as close to [q] as any can be? *)
Definition nearest (q : Q) (z : Z) : Prop := (Qabs (q - inject_Z z) <= 1 # 2)%Q.

(** A tile's position on the pixel grid: (y, x) of the corner and of the steps, in
    whole pixels. *)
Record on_grid := mk_on { og_corner : Z * Z; og_ss : Z * Z; og_fs : Z * Z }.

(** Each number is the nearest whole number of pixels (half way: the even one,
    see [half_even]). *)
Definition half_even (q : Q) (z : Z) : Prop :=
  nearest q z /\ ((Qabs (q - inject_Z z) == 1 # 2)%Q -> Z.even z = true).

Definition snaps_to (px : Q * Q) (t : tile) (o : on_grid) : Prop :=
  half_even (vx (t_corner t) / fst px) (snd (og_corner o)) /\
  half_even (vy (t_corner t) / snd px) (fst (og_corner o)) /\
  half_even (vx (t_ss t) / fst px) (snd (og_ss o)) /\
  half_even (vy (t_ss t) / snd px) (fst (og_ss o)) /\
  half_even (vx (t_fs t) / fst px) (snd (og_fs o)) /\
  half_even (vy (t_fs t) / snd px) (fst (og_fs o)).

(** One step is one pixel up or down and the other one pixel left or right. *)
Definition aligned (o : on_grid) : Prop :=
  (fst (og_ss o) = 0 /\ Z.abs (snd (og_ss o)) = 1 /\ Z.abs (fst (og_fs o)) = 1 /\ snd (og_fs o) = 0) \/
  (Z.abs (fst (og_ss o)) = 1 /\ snd (og_ss o) = 0 /\ fst (og_fs o) = 0 /\ Z.abs (snd (og_fs o)) = 1).

(** Pixel (s, f) of the tile is the square spanned by one step each from the point
    corner + s * ss + f * fs; the cell is given by its lower bounds. *)
Definition cell (o : on_grid) (s f : Z) : Z * Z :=
  let at_ c a b := c + s * a + f * b + Z.min 0 (a + b) in
  (at_ (fst (og_corner o)) (fst (og_ss o)) (fst (og_fs o)),
   at_ (snd (og_corner o)) (snd (og_ss o)) (snd (og_fs o))).

(** Pixel (s, f) of tile t of module m lies on cell (y, x). *)
Definition covers (px : Q * Q) (d : detector) (g : geometry) (m t s f y x : Z) : Prop :=
  exists tl o, tile_at g m t = Some tl /\ in_tile d s f /\ snaps_to px tl o /\ cell o s f = (y, x).

(** (m, t) comes after (m', t') in the order of modules and tiles. *)
Definition after (m t m' t' : Z) : Prop := m' < m \/ (m' = m /\ t' < t).

Definition snappable (px : Q * Q) (g : geometry) : Prop :=
  forall m t tl, tile_at g m t = Some tl -> exists o, snaps_to px tl o /\ aligned o.

(** ** Distortion arrays *)

(** Entries are (z, y, x). *)
Definition teq (a b : Q * Q * Q) : Prop := (d_z a == d_z b /\ d_y a == d_y b /\ d_x a == d_x b)%Q.

(** Entry n of the pixel at row r and column c exists: modules are stacked along
    the rows. *)
Definition in_array (d : detector) (r c : Z) (n : nat) : Prop :=
  0 <= r < n_modules d * mod_ss d /\ 0 <= c < mod_fs d /\ (n < List.length (outline d))%nat.

(** (k, (ds, df), k'): corner k of pixel (s, f) is corner k' of pixel (s+ds, f+df) *)
Definition shared (d : detector) (s : Z) : list (nat * (Z * Z) * nat) :=
  match d with
  | DSSC =>
      let e := if Z.odd s then -1 else 0 in
      [ (1%nat, (0, 1), 5%nat); (2%nat, (0, 1), 4%nat);
        (4%nat, (1, e), 0%nat); (3%nat, (1, e), 1%nat);
        (3%nat, (1, e + 1), 5%nat); (2%nat, (1, e + 1), 0%nat) ]
  | _ =>
      [ (1%nat, (1, 0), 0%nat); (2%nat, (1, 0), 3%nat);
        (3%nat, (0, 1), 0%nat); (2%nat, (0, 1), 1%nat) ]
  end.

(** What cells without a pixel hold: the fill value or what the given array held. *)
Definition o_start {A} (nan : A) (out : option (out_arr A)) : image A :=
  match out with None => fun _ _ => nan | Some o => oa_at o end.

(** ** Quadrants *)

(** Module m (0-15) is in quadrant m / 4 (0-3) and has number m mod 4 there. *)

(** Quadrants 1 and 2 have slow scan towards positive x, the other two negative. *)
Definition q_dir (m : Z) : Z := if m <? 8 then 1 else -1.

(** position of a module in its quadrant, and of a tile in its module, counted
    from the corner at the highest x and y *)
Definition panel_across (m : Z) : Z := if m mod 4 <? 2 then -1 else 0.
Definition panel_up (m : Z) : Z := if (m mod 4 =? 1) || (m mod 4 =? 2) then -1 else 0.
Definition tile_across (t : Z) : Z := if t <? 8 then -1 else 0.
Definition tile_up (t : Z) : Z := if t <? 8 then - t else t - 15.

(** size of a gap in metres: the default is 4 pixels *)
Definition gap_m (unit : Q) (g : option Q) : Q := match g with None => 4 * pixel_size LPD | Some q => q * unit end%Q.

(** Quadrants and modules in geometry files are numbered from 1. *)
Definition quad_of (m : Z) : Z := m / 4 + 1.
Definition mod_of (m : Z) : Z := m mod 4 + 1.

(** DSSC: quadrants 1 and 2 have fast scan towards negative x and slow scan
    towards positive y, the other two the other way round. *)
Definition dssc_dir (m : Z) : Z := if m <? 8 then -1 else 1.

(** where a point of the tile should be in the output array, (y, x) in pixels *)
Definition out_point (centre : Z * Z) (t : tile) (s f : Q) : Q * Q :=
  (inject_Z (fst centre) + vy (point t s f) / pixel_size AGIPD, inject_Z (snd centre) + vx (point t s f) / pixel_size AGIPD)%Q.

Definition pair_qeq (a b : Q * Q) : Prop := (fst a == fst b /\ snd a == snd b)%Q.
