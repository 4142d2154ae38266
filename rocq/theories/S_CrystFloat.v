(** Specification of rounded arithmetic with CrystFEL geometry files. *)

From Coq Require Import QArith Qabs.
From Verif Require Import Base M_Geom M_Crystfel S_Geom S_GeomFloat.

Local Open Scope string_scope.

(** Every coordinate of the tiles is at most [b] metres in size. *)
Definition vec_within (b : Q) (v : vec) : Prop := (Qabs (vx v) <= b /\ Qabs (vy v) <= b /\ Qabs (vz v) <= b)%Q.
Definition within (b : Q) (g : geometry) : Prop :=
  forall m t tl, tile_at g m t = Some tl -> vec_within b (t_corner tl) /\ vec_within b (t_ss tl) /\ vec_within b (t_fs tl).

(** No corner and no step of a tile is, in pixels, within [e] of a point half way
    between integers. *)
Definition vec_clear (e : Q) (px : Q * Q) (v : vec) : Prop :=
  clear_of_half e (vx v / fst px) /\ clear_of_half e (vy v / snd px).
Definition numbers_clear (e : Q) (px : Q * Q) (g : geometry) : Prop :=
  forall m t tl, tile_at g m t = Some tl -> vec_clear e px (t_corner tl) /\ vec_clear e px (t_ss tl) /\ vec_clear e px (t_fs tl).

(** Every panel of the file has between 1 and 10^9 pixels per metre. *)
Definition res_usual (f : cffile) : Prop :=
  forall name pd r, dict_get name (cf_panels (load_crystfel f)) = Some pd -> get_num pd "res" = Ok r -> (1 <= r <= inject_Z (10 ^ 9))%Q.
