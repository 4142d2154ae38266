(** Rounding errors of detector geometries, in metres: C106. *)

From Coq Require Import QArith Qround Qabs.
From Verif Require Import Base L_Base M_Geom M_GeomFloat S_Geom S_GeomFloat L_GeomFloat L_GeomFloat4 L_GeomMetres P_Geom P_GeomFloat.

Local Open Scope Z_scope.
Local Open Scope list_scope.

(** The vectors differ by at most [e] across the beam in each direction; the tiles do so, and have equal numbers of
    pixels; the geometries have the same tiles up to that. *)
Definition xy_diff (e : Q) (v w : vec) : Prop := (Qabs (vx v - vx w) <= e /\ Qabs (vy v - vy w) <= e)%Q.
Definition tile_xy_diff (e : Q) (t u : tile) : Prop :=
  xy_diff e (t_corner t) (t_corner u) /\ xy_diff e (t_ss t) (t_ss u) /\ xy_diff e (t_fs t) (t_fs u) /\
  t_ss_px t = t_ss_px u /\ t_fs_px t = t_fs_px u.
Definition geometry_xy_diff (e : Q) (g h : geometry) : Prop :=
  forall m t, match tile_at g m t, tile_at h m t with Some a, Some b => tile_xy_diff e a b | None, None => True | _, _ => False end.

Lemma rel_nth : forall A B (R : A -> B -> Prop) l l', Forall2 R l l' -> forall n,
  match nth_error l n, nth_error l' n with Some a, Some b => R a b | None, None => True | _, _ => False end.
Proof. intros A B R l l' H. induction H; intros [|n]; cbn; auto. exact (IHForall2 n). Qed.
Lemma mclose_diff : forall g' g, Forall2 (Forall2 mclose) g' g -> geometry_xy_diff (15 # 10 ^ 14) g' g.
Proof.
  intros g' g H m t. unfold tile_at. destruct ((0 <=? m) && (0 <=? t)); [|exact I].
  pose proof (@rel_nth _ _ _ _ _ H (Z.to_nat m)) as N. destruct (nth_error g' (Z.to_nat m)) as [m0|], (nth_error g (Z.to_nat m)) as [m1|]; try contradiction; [|exact I].
  pose proof (@rel_nth _ _ _ _ _ N (Z.to_nat t)) as N'. destruct (nth_error m0 (Z.to_nat t)), (nth_error m1 (Z.to_nat t)); try contradiction; [|exact I].
  destruct N' as (A1 & A2 & (A3 & _) & (A4 & _) & (A5 & _) & (A6 & _) & (A7 & _) & (A8 & _)). repeat split; assumption.
Qed.

(** Corners and steps of the tiles computed with float64 are within 0.15 picometres of the exact ones,
    wherever they lie: near halves of pixels as well. *)
Theorem C106_agipd_metres : forall fl qp ag pg g, float64 fl ->
  (forall q, In q qp -> Qabs (fst q) <= 100000 /\ Qabs (snd q) <= 100000)%Q -> (Qabs ag <= 5000)%Q -> (Qabs pg <= 5000)%Q ->
  agipd_from_quad_positions qp ag pg (pixel_size AGIPD) = Ok g ->
  exists gf, agipd_from_quad_positions_fl fl qp ag pg (pixel_size_fl fl AGIPD) = Ok gf /\ geometry_xy_diff (15 # 10 ^ 14) gf g.
Proof.
  intros fl qp ag pg g F HQ HA HP E. destruct (@agipd_metres fl F qp ag pg g HQ HA HP E) as (gf & EF & H). exists gf. split; [exact EF|exact (mclose_diff _ _ H)].
Qed.
Print Assumptions C106_agipd_metres.

Theorem C106_lpd_metres : forall fl qp w ag pg g, float64 fl -> (1 # 10000 <= w <= 1 # 100)%Q ->
  (forall q, In q qp -> Qabs (fst q * w) <= 20 /\ Qabs (snd q * w) <= 20)%Q ->
  (forall x, ag = Some x -> Qabs x <= 100)%Q -> (forall x, pg = Some x -> Qabs x <= 100)%Q ->
  lpd_from_quad_positions qp w ag pg = Ok g ->
  exists gf, lpd_from_quad_positions_fl fl qp (fl w) ag pg = Ok gf /\ geometry_xy_diff (15 # 10 ^ 14) gf g.
Proof.
  intros fl qp w ag pg g F [W1 W2] HQ HA HP E.
  assert (GA : small_gap ag) by (destruct ag; cbn; [apply HA; reflexivity|exact I]).
  assert (GP : small_gap pg) by (destruct pg; cbn; [apply HP; reflexivity|exact I]).
  destruct (@lpd_metres fl F qp w ag pg g W1 W2 HQ GA GP E) as (gf & EF & H). exists gf. split; [exact EF|exact (mclose_diff _ _ H)].
Qed.
Print Assumptions C106_lpd_metres.

Theorem C106_lpd_file_metres : forall fl f qp w g, float64 fl ->
  (1 # 10000 <= w <= 1 # 100)%Q -> (forall q, In q qp -> Qabs (fst q) <= 1000 /\ Qabs (snd q) <= 1000)%Q ->
  (forall q m p, h5_module f q m = Some p -> Qabs (fst p) <= 1000 /\ Qabs (snd p) <= 1000)%Q ->
  (forall q m t p, h5_tile f q m t = Some p -> Qabs (fst p) <= 1000 /\ Qabs (snd p) <= 1000)%Q ->
  lpd_from_h5 f qp w = Ok g ->
  exists gf, lpd_from_h5_fl fl f qp (fl w) = Ok gf /\ geometry_xy_diff (15 # 10 ^ 14) gf g.
Proof.
  intros fl f qp w g F [W1 W2] HQ HM HT E. destruct (@lpd_h5_metres fl F f qp w g W1 W2 HQ HM HT E) as (gf & EF & H).
  exists gf. split; [exact EF|exact (mclose_diff _ _ H)].
Qed.
Print Assumptions C106_lpd_file_metres.

Theorem C106_dssc_metres : forall fl rs s3 f qp w g, float64 fl -> root_three rs s3 ->
  (1 # 10000 <= w <= 1 # 100)%Q -> (forall q, In q qp -> Qabs (fst q) <= 1000 /\ Qabs (snd q) <= 1000)%Q ->
  (forall q m p, h5_module f q m = Some p -> Qabs (fst p) <= 1000 /\ Qabs (snd p) <= 1000)%Q ->
  (forall q m t p, h5_tile f q m t = Some p -> Qabs (fst p) <= 1000 /\ Qabs (snd p) <= 1000)%Q ->
  dssc_from_h5 rs f qp w = Ok g ->
  exists gf, dssc_from_h5_fl fl s3 f qp (fl w) = Ok gf /\ geometry_xy_diff (15 # 10 ^ 14) gf g.
Proof.
  intros fl rs s3 f qp w g F R [W1 W2] HQ HM HT E. destruct (@dssc_h5_metres fl F rs s3 R f qp w g W1 W2 HQ HM HT E) as (gf & EF & H).
  exists gf. split; [exact EF|exact (mclose_diff _ _ H)].
Qed.
Print Assumptions C106_dssc_metres.

(** The hypotheses are met by the geometry of the documentation, with a corner half way between pixels; the others
    by the geometries of C106_example and C106_dssc_example. *)
Example C106_metres_example :
  (forall q, In q doc_quads -> Qabs (fst q) <= 100000 /\ Qabs (snd q) <= 100000)%Q /\
  (exists g, agipd_from_quad_positions doc_quads 2 29 (pixel_size AGIPD) = Ok g) /\
  (forall q, In q lpd_quads -> Qabs (fst q) <= 1000 /\ Qabs (snd q) <= 1000)%Q /\
  (forall q, In q lpd_quads -> Qabs (fst q * (1 # 1000)) <= 20 /\ Qabs (snd q * (1 # 1000)) <= 20)%Q /\
  (exists g, lpd_from_quad_positions lpd_quads (1 # 1000) None (Some (21 # 10)%Q) = Ok g) /\
  (exists g, lpd_from_h5 ex_h5 lpd_quads (1 # 1000) = Ok g) /\
  (exists g, dssc_from_h5 ex_rs ex_h5 lpd_quads (1 # 1000) = Ok g).
Proof.
  split; [apply small_check; vm_compute; reflexivity|]. split; [eexists; vm_compute; reflexivity|].
  split; [apply small_check; vm_compute; reflexivity|].
  split; [intros q I; cbn in I; destruct I as [<-|[<-|[<-|[<-|[]]]]]; split; vm_compute; discriminate|].
  repeat split; eexists; vm_compute; reflexivity.
Qed.
