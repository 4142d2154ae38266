(** Specification of pixel positions with rounded arithmetic. *)
From Coq Require Import QArith Qround Qabs.
From Verif Require Import Base M_Geom S_Geom S_GeomFloat.

(** What float32 guarantees: half a unit in the last of 24 binary places, or half the smallest number; numbers which are not
    negative do not become so, and zero stays zero. *)
Definition float32 (f : Q -> Q) : Prop :=
  (forall q, Qabs q <= inject_Z (2 ^ 100) -> Qabs (f q - q) <= (1 # 2 ^ 24) * Qabs q + (1 # 2 ^ 150))%Q /\
  (forall q, 0 <= q -> 0 <= f q)%Q /\ (forall q, q == 0 -> f q == 0)%Q.

(** Rounding to 24 binary places. *)
Definition binary32 (q : Q) : Q :=
  if Qeq_bool q 0 then 0 else let ulp := (2 ^ (exponent q - 23))%Q in (inject_Z (np_around (q / ulp)) * ulp)%Q.

(** Tiles within a metre of the origin, with pixels of up to a millimetre. *)
Definition vsmall (M : Q) (v : vec) : Prop := (Qabs (vx v) <= M /\ Qabs (vy v) <= M /\ Qabs (vz v) <= M)%Q.
Definition tile_small (t : tile) : Prop := vsmall 1 (t_corner t) /\ vsmall (1 # 1000) (t_ss t) /\ vsmall (1 # 1000) (t_fs t).
Definition geometry_small (g : geometry) : Prop := forall m t tl, tile_at g m t = Some tl -> tile_small tl.

(** Each coordinate is right to [e]. *)
Definition vclose (e : Q) (v w : vec) : Prop := (Qabs (vx v - vx w) <= e /\ Qabs (vy v - vy w) <= e /\ Qabs (vz v - vz w) <= e)%Q.
Definition tclose (e : Q) (a b : Q * Q * Q) : Prop := (Qabs (d_z a - d_z b) <= e /\ Qabs (d_y a - d_y b) <= e /\ Qabs (d_x a - d_x b) <= e)%Q.
