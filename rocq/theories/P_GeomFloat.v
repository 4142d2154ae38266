(** Rounding errors in detector geometries: C106. *)

From Coq Require Import QArith Qround Qabs.
From Verif Require Import Base L_Base PyStr M_Geom M_GeomFloat S_Geom S_GeomFloat L_Geom1 L_Geom2 L_Geom4 L_Geom5
  L_GeomFloat L_GeomFloat2 L_GeomFloat3 L_GeomFloat4 L_GeomFloat5 L_GeomFloat6 P_Geom.

Local Open Scope Z_scope.
Local Open Scope list_scope.

(** ** C106: rounding errors do not move tiles *)

(** With any arithmetic which keeps float64's precision, AGIPD images are those of
    exact arithmetic: positions up to 100000 and gaps up to 5000 pixels, no corner
    within 1e-8 pixels of the middle between two pixels. *)
Theorem C106_agipd : forall A fl (nan : A) rs qp ag pg g shape data out, float64 fl ->
  List.length qp = 4%nat -> (forall q, In q qp -> Qabs (fst q) <= 100000 /\ Qabs (snd q) <= 100000)%Q ->
  (Qabs ag <= 5000)%Q -> (Qabs pg <= 5000)%Q ->
  agipd_from_quad_positions qp ag pg (pixel_size AGIPD) = Ok g -> corners_clear (1 # 10 ^ 8) (pixel_shape rs AGIPD) g ->
  exists gf, agipd_from_quad_positions_fl fl qp ag pg (pixel_size_fl fl AGIPD) = Ok gf /\
    position_modules_fast_fl fl nan (pixel_shape_fl fl AGIPD) AGIPD gf shape data out = position_modules_fast nan rs AGIPD g shape data out.
Proof.
  intros A fl nan rs qp ag pg g shape data out F L HQ HA HP E C. destruct (@agipd_close fl F rs qp ag pg g HQ HA HP E) as (gf & EF & H).
  exists gf. split; [exact EF|]. apply image_close; [exact H|]. apply tiles_clear; [reflexivity|reflexivity|exact C|].
  intros m t tl Ht. destruct (@agipd_spec qp ag pg (pixel_size AGIPD) L) as (g2 & E2 & _ & S). rewrite E in E2. injection E2 as <-.
  destruct (S _ _ _ Ht) as (q & _ & _ & (S1 & S2 & _) & (S3 & S4 & _)). cbn [vx vy vz] in S1, S2, S3, S4.
  exists (q_dir m), 0, 0, (- q_dir m). rewrite S1, S2, S3, S4, inject_Z_opp. repeat split; try reflexivity; ring.
Qed.
Print Assumptions C106_agipd.

(** Positions and gaps of whole pixels leave every corner clear. *)
Theorem C106_whole_pixels : forall rs qp ag pg g, List.length qp = 4%nat ->
  (forall q, In q qp -> exists x y : Z, fst q == inject_Z x /\ snd q == inject_Z y)%Q -> (exists z : Z, ag == inject_Z z)%Q -> (exists z : Z, pg == inject_Z z)%Q ->
  agipd_from_quad_positions qp ag pg (pixel_size AGIPD) = Ok g -> corners_clear (1 # 10 ^ 8) (pixel_shape rs AGIPD) g.
Proof.
  intros rs qp ag pg g L HQ [a Ha] [b Hb] E m t tl Ht. destruct (@agipd_spec qp ag pg (pixel_size AGIPD) L) as (g2 & E2 & _ & S). rewrite E in E2. injection E2 as <-.
  destruct (S _ _ _ Ht) as (q & Hq & (S1 & S2 & _) & _). cbn [vx vy vz] in S1, S2. apply nth_error_In in Hq. destruct (HQ _ Hq) as (x & y & Hx & Hy).
  cbn [pixel_shape fst snd]. split.
  - apply whole_clear with (x + q_dir m * t * (64 + a)); [reflexivity|]. rewrite S1, Hx, Ha, inject_Z_plus, !inject_Z_mult, inject_Z_plus.
    change (inject_Z 64) with 64%Q. field. discriminate.
  - apply whole_clear with (y - m mod 4 * (128 + b)); [reflexivity|]. unfold Z.sub. rewrite S2, Hy, Hb, inject_Z_plus, inject_Z_opp, !inject_Z_mult, inject_Z_plus.
    change (inject_Z 128) with 128%Q. field. discriminate.
Qed.
Print Assumptions C106_whole_pixels.

(** LPD from quadrant positions in a unit between 0.1 mm and 1 cm, positions up to
    20 m and gaps up to 100 units. *)
Theorem C106_lpd : forall A fl (nan : A) rs qp w ag pg g shape data out, float64 fl ->
  (1 # 10000 <= w <= 1 # 100)%Q -> List.length qp = 4%nat ->
  (forall q, In q qp -> Qabs (fst q * w) <= 20 /\ Qabs (snd q * w) <= 20)%Q ->
  (forall x, ag = Some x -> Qabs x <= 100)%Q -> (forall x, pg = Some x -> Qabs x <= 100)%Q ->
  lpd_from_quad_positions qp w ag pg = Ok g -> corners_clear (1 # 10 ^ 8) (pixel_shape rs LPD) g ->
  exists gf, lpd_from_quad_positions_fl fl qp (fl w) ag pg = Ok gf /\
    position_modules_fast_fl fl nan (pixel_shape_fl fl LPD) LPD gf shape data out = position_modules_fast nan rs LPD g shape data out.
Proof.
  intros A fl nan rs qp w ag pg g shape data out F [W1 W2] L HQ HA HP E C.
  assert (GA : small_gap ag) by (destruct ag; cbn; [apply HA; reflexivity|exact I]).
  assert (GP : small_gap pg) by (destruct pg; cbn; [apply HP; reflexivity|exact I]).
  destruct (@lpd_close fl F rs qp w ag pg g W1 W2 HQ GA GP E) as (gf & EF & H).
  exists gf. split; [exact EF|]. apply image_close; [exact H|]. apply tiles_clear; [reflexivity|reflexivity|exact C|].
  intros m t tl Ht. destruct (@lpd_spec qp w ag pg L) as (g2 & E2 & _ & S). rewrite E in E2. injection E2 as <-.
  destruct (S _ _ _ Ht) as (q & _ & _ & (S1 & S2 & _) & (S3 & S4 & _)). cbn [vx vy vz] in S1, S2, S3, S4.
  exists 0, 1, 1, 0. rewrite S1, S2, S3, S4. repeat split; reflexivity.
Qed.
Print Assumptions C106_lpd.

(** LPD from a geometry file, positions in it and of the quadrants up to 1000 units. *)
Theorem C106_lpd_file : forall A fl (nan : A) rs f qp w g shape data out, float64 fl ->
  (1 # 10000 <= w <= 1 # 100)%Q -> (forall q, In q qp -> Qabs (fst q) <= 1000 /\ Qabs (snd q) <= 1000)%Q ->
  (forall q m p, h5_module f q m = Some p -> Qabs (fst p) <= 1000 /\ Qabs (snd p) <= 1000)%Q ->
  (forall q m t p, h5_tile f q m t = Some p -> Qabs (fst p) <= 1000 /\ Qabs (snd p) <= 1000)%Q ->
  lpd_from_h5 f qp w = Ok g -> corners_clear (1 # 10 ^ 8) (pixel_shape rs LPD) g ->
  exists gf, lpd_from_h5_fl fl f qp (fl w) = Ok gf /\
    position_modules_fast_fl fl nan (pixel_shape_fl fl LPD) LPD gf shape data out = position_modules_fast nan rs LPD g shape data out.
Proof.
  intros A fl nan rs f qp w g shape data out F [W1 W2] HQ HM HT E C.
  destruct (@lpd_h5_close fl F rs f qp w g W1 W2 HQ HM HT E) as (gf & EF & H).
  exists gf. split; [exact EF|]. apply image_close; [exact H|]. apply tiles_clear; [reflexivity|reflexivity|exact C|].
  intros m t tl Ht. destruct (lpd_h5_spec E) as (_ & S). destruct (S _ _ _ Ht) as (q & mp & tp & _ & _ & _ & _ & (S1 & S2 & _) & (S3 & S4 & _)).
  cbn [vx vy vz] in S1, S2, S3, S4. exists 0, 1, 1, 0. rewrite S1, S2, S3, S4. repeat split; reflexivity.
Qed.
Print Assumptions C106_lpd_file.

(** DSSC from a geometry file, with half the square root of three known to 1e-15. *)
Theorem C106_dssc : forall A fl (nan : A) rs s3 f qp w g shape data out, float64 fl -> root_three rs s3 ->
  (1 # 10000 <= w <= 1 # 100)%Q -> (forall q, In q qp -> Qabs (fst q) <= 1000 /\ Qabs (snd q) <= 1000)%Q ->
  (forall q m p, h5_module f q m = Some p -> Qabs (fst p) <= 1000 /\ Qabs (snd p) <= 1000)%Q ->
  (forall q m t p, h5_tile f q m t = Some p -> Qabs (fst p) <= 1000 /\ Qabs (snd p) <= 1000)%Q ->
  dssc_from_h5 rs f qp w = Ok g -> corners_clear (1 # 10 ^ 8) (pixel_shape rs DSSC) g ->
  exists gf, dssc_from_h5_fl fl s3 f qp (fl w) = Ok gf /\
    position_modules_fast_fl fl nan (dssc_pixel_shape_fl fl s3) DSSC gf shape data out = position_modules_fast nan rs DSSC g shape data out.
Proof.
  intros A fl nan rs s3 f qp w g shape data out F R [W1 W2] HQ HM HT E C.
  destruct (@dssc_h5_close fl F rs s3 R f qp w g W1 W2 HQ HM HT E) as (gf & EF & H).
  exists gf. split; [exact EF|]. apply image_close; [exact H|]. apply tiles_clear; [reflexivity| |exact C|].
  { cbn [pixel_shape snd]. destruct R as (P & _). setoid_replace (rs * pixel_size DSSC)%Q with (pixel_size DSSC * rs)%Q by ring.
    apply (Qmult_lt_0_compat (pixel_size DSSC) rs); [reflexivity|exact P]. }
  intros m t tl Ht. destruct (dssc_h5_spec E) as (_ & S). destruct (S _ _ _ Ht) as (q & mp & tp & _ & _ & _ & _ & (S1 & S2 & _) & (S3 & S4 & _)).
  cbn [vx vy vz] in S1, S2, S3, S4. exists 0, (- dssc_dir m), (dssc_dir m), 0. cbn [pixel_shape fst snd]. rewrite S1, S2, S3, S4, inject_Z_opp. repeat split; ring.
Qed.
Print Assumptions C106_dssc.

(** Rounding to nearest with 53 binary places is such an arithmetic. *)
Theorem C106_binary64 : float64 binary64.
Proof. exact binary64_float64. Qed.
Print Assumptions C106_binary64.

(** The distance is needed: in the geometry of the documentation (a quadrant at
    x = 542.5 pixels) float64 shows pixels of module 12 where exact arithmetic
    leaves a gap between tiles 5 and 6. *)
Definition doc_quads : list (Q * Q) := [(-525, 625); (-550, -10); (520, -160); (1085 # 2, 475)]%Q.
Definition numbers (m s f : Z) : option (Z * Z * Z) := Some (m, s, f).
Definition doc_g : geometry := match agipd_from_quad_positions doc_quads 2 29 (pixel_size AGIPD) with Ok g => g | Err _ => [] end.
Definition doc_gf : geometry :=
  match agipd_from_quad_positions_fl binary64 doc_quads 2 29 (pixel_size_fl binary64 AGIPD) with Ok g => g | Err _ => [] end.

Lemma shown : forall A (r : res (image A * (Z * Z))) c y x v,
  match r with Ok (i, c') => Some (c', i y x) | Err _ => None end = Some (c, v) -> exists i, r = Ok (i, c) /\ i y x = v.
Proof. intros A [[i c']|e] c y x v H; [|discriminate]. injection H as -> E. exists i. split; [reflexivity|exact E]. Qed.

Theorem C106_half_refuted :
  exists g gf img imgf c,
    agipd_from_quad_positions doc_quads 2 29 (pixel_size AGIPD) = Ok g /\
    agipd_from_quad_positions_fl binary64 doc_quads 2 29 (pixel_size_fl binary64 AGIPD) = Ok gf /\
    position_modules_fast None 1 AGIPD g (16, 512, 128) numbers None = Ok (img, c) /\
    position_modules_fast_fl binary64 None (pixel_shape_fl binary64 AGIPD) AGIPD gf (16, 512, 128) numbers None = Ok (imgf, c) /\
    exists y x, img y x = None /\ imgf y x = Some (12, 384, 0).
Proof.
  destruct (@shown _ (position_modules_fast None 1 AGIPD doc_g (16, 512, 128) numbers None) (631, 550) 1106 696 None) as (img & E1 & V1); [vm_compute; reflexivity|].
  destruct (@shown _ (position_modules_fast_fl binary64 None (pixel_shape_fl binary64 AGIPD) AGIPD doc_gf (16, 512, 128) numbers None) (631, 550) 1106 696 (Some (12, 384, 0)))
    as (imgf & E2 & V2); [vm_compute; reflexivity|].
  exists doc_g, doc_gf, img, imgf, (631, 550). split; [vm_compute; reflexivity|]. split; [vm_compute; reflexivity|].
  split; [exact E1|]. split; [exact E2|]. exists 1106, 696. split; assumption.
Qed.
Print Assumptions C106_half_refuted.

(** The hypotheses are met: whole pixels, and positions with a fraction. *)
Definition frac_quads : list (Q * Q) := [(-525, 625); (-550, -10); (520, -160); (5423 # 10, 475)]%Q.
Definition lpd_quads : list (Q * Q) := [(114 # 10, 299); (-115 # 10, 8); (254, -16); (2785 # 10, 275)]%Q.
Lemma small_check : forall (b : Q) (l : list (Q * Q)), forallb (fun q => Qle_bool (Qabs (fst q)) b && Qle_bool (Qabs (snd q)) b) l = true ->
  forall q, In q l -> (Qabs (fst q) <= b /\ Qabs (snd q) <= b)%Q.
Proof. intros b l H q I. rewrite forallb_forall in H. specialize (H q I). apply andb_true_iff in H as [H1 H2]. apply Qle_bool_iff in H1, H2. auto. Qed.

Example C106_example :
  (exists g, agipd_from_quad_positions ex_quads 2 29 (pixel_size AGIPD) = Ok g /\ corners_clear (1 # 10 ^ 8) (pixel_shape 1 AGIPD) g) /\
  (exists g, agipd_from_quad_positions frac_quads (201 # 100) 29 (pixel_size AGIPD) = Ok g /\ corners_clear (1 # 10 ^ 8) (pixel_shape 1 AGIPD) g) /\
  (forall q, In q frac_quads -> Qabs (fst q) <= 100000 /\ Qabs (snd q) <= 100000)%Q /\
  (exists g, lpd_from_quad_positions lpd_quads (1 # 1000) None (Some (21 # 10)%Q) = Ok g /\ corners_clear (1 # 10 ^ 8) (pixel_shape 1 LPD) g) /\
  (exists g, lpd_from_h5 ex_h5 lpd_quads (1 # 1000) = Ok g /\ corners_clear (1 # 10 ^ 8) (pixel_shape 1 LPD) g) /\
  (forall q, In q lpd_quads -> Qabs (fst q) <= 1000 /\ Qabs (snd q) <= 1000)%Q.
Proof.
  split; [|split; [|split; [|split; [|split]]]].
  - destruct (@agipd_spec ex_quads 2 29 (pixel_size AGIPD) eq_refl) as (g & E & _). exists g. split; [exact E|]. apply (C106_whole_pixels 1 ex_quads 2 29 g eq_refl); [| | |exact E].
    + intros q I. cbn in I. destruct I as [<-|[<-|[<-|[<-|[]]]]]; cbn [fst snd]; eexists; eexists; split; try (unfold inject_Z; reflexivity).
    + exists 2. reflexivity.
    + exists 29. reflexivity.
  - eexists. split; [vm_compute; reflexivity|]. apply corners_clearb_ok; vm_compute; reflexivity.
  - apply small_check. vm_compute. reflexivity.
  - eexists. split; [vm_compute; reflexivity|]. apply corners_clearb_ok; vm_compute; reflexivity.
  - eexists. split; [vm_compute; reflexivity|]. apply corners_clearb_ok; vm_compute; reflexivity.
  - apply small_check. vm_compute. reflexivity.
Qed.

(** The rounding is visible: a tenth is not a binary fraction. *)
Example C106_binary64_example : ~ (binary64 (1 # 10) == 1 # 10)%Q /\ (binary64 (1 # 4) == 1 # 4)%Q /\ (binary64 (2 # 10000) == 7378697629483821 # 36893488147419103232)%Q.
Proof. split; [vm_compute; discriminate|]. split; vm_compute; reflexivity. Qed.

Definition ex_rs : Q := 866025403784438646 # 10 ^ 18.
Definition ex_s3 : Q := 3900231685776981 # 2251799813685248.
Example C106_dssc_example : root_three ex_rs ex_s3 /\ (binary64 ex_s3 == ex_s3)%Q /\
  exists g, dssc_from_h5 ex_rs ex_h5 lpd_quads (1 # 1000) = Ok g /\ corners_clear (1 # 10 ^ 8) (pixel_shape ex_rs DSSC) g.
Proof.
  split; [repeat split; vm_compute; first [reflexivity|discriminate]|]. split; [vm_compute; reflexivity|].
  eexists. split; [vm_compute; reflexivity|]. apply corners_clearb_ok; vm_compute; reflexivity.
Qed.
