(** Specification of rounded arithmetic. *)

From Coq Require Import QArith Qround Qabs.
From Verif Require Import Base M_Geom S_Geom.

(** What float64 guarantees for results which do not overflow: half a unit in the
    last of 53 binary places, or half the smallest number. *)
Definition float64 (fl : Q -> Q) : Prop :=
  forall q, (Qabs q <= inject_Z (2 ^ 1000) -> Qabs (fl q - q) <= (1 # 2 ^ 53) * Qabs q + (1 # 2 ^ 1075))%Q.

(** The number is further than [e] from every point half way between integers. *)
Definition clear_of_half (e q : Q) : Prop := forall z : Z, (e < Qabs (q - (inject_Z z + (1 # 2))))%Q.

(** No corner of a tile is, in pixels of the size [px], within [e] of such a point. *)
Definition corners_clear (e : Q) (px : Q * Q) (g : geometry) : Prop :=
  forall m t tl, tile_at g m t = Some tl ->
    clear_of_half e (vx (t_corner tl) / fst px)%Q /\ clear_of_half e (vy (t_corner tl) / snd px)%Q.

(** Up to 1e-15, [rs] is half the square root of three and [s3] the square root. *)
Definition root_three (rs s3 : Q) : Prop :=
  (0 < rs /\ 0 < s3 /\ Qabs (rs * rs - (3 # 4)) <= 1 # 10 ^ 15 /\ Qabs (s3 * s3 - 3) <= 1 # 10 ^ 15)%Q.

(** Rounding to the nearest number with 53 binary places (halves to even), as
    IEEE 754 has it, without limits of the exponent. *)
Definition exponent (q : Q) : Z :=
  let k := (Z.log2 (Z.abs (Qnum q)) - Z.log2 (Zpos (Qden q)))%Z in
  if Qle_bool (2 ^ k) (Qabs q) then k else (k - 1)%Z.
Definition binary64 (q : Q) : Q :=
  if Qeq_bool q 0 then 0 else let ulp := (2 ^ (exponent q - 52))%Q in (inject_Z (np_around (q / ulp)) * ulp)%Q.
