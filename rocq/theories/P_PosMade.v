(** Pixel positions of detector geometries made from quadrant positions or geometry files, all in rounded
    arithmetic: C109. *)

From Coq Require Import QArith Qabs Lqa.
From Verif Require Import Base PyStr L_Base M_Geom M_GeomFloat S_Geom S_GeomFloat S_CrystFloat L_Geom1 L_Geom2 L_Geom3 L_Geom4 L_Geom5 L_GeomFloat L_GeomFloat4
  L_GeomMetres P_Geom M_PosFloat S_PosFloat L_PosFloat P_PosFloat P_GeomFloat P_GeomFlat P_GeomMetres P_CrystMetres P_PosMetres.

Local Open Scope Z_scope.
Local Open Scope list_scope.

(** The corner of every pixel is right to 0.1 nanometres: [pos] is what get_pixel_positions gives, [g] the exact geometry. *)
Definition positions_right (d : detector) (pos : Z -> Z -> Z -> vec) (g : geometry) : Prop :=
  forall m t tl s f, tile_at g m t = Some tl -> S_Geom.in_tile d s f ->
    vclose (1 # 10 ^ 10) (pos m (fst (data_pixel d t s f)) (snd (data_pixel d t s f))) (point tl (fst (pixel_origin d s f)) (snd (pixel_origin d s f))).

Definition flat (g : geometry) : Prop := forall m t tl, tile_at g m t = Some tl -> (vz (t_corner tl) == 0 /\ vz (t_ss tl) == 0 /\ vz (t_fs tl) == 0)%Q.

Lemma flat_diff : forall e g' g, (0 <= e)%Q -> geometry_xy_diff e g' g -> flat g' -> flat g -> geometry_diff e g' g.
Proof.
  intros e g' g P D F' F m t. specialize (D m t). destruct (tile_at g' m t) as [a|] eqn:Ea, (tile_at g m t) as [b|] eqn:Eb; try exact D.
  destruct (F' _ _ _ Ea) as (A1 & A2 & A3), (F _ _ _ Eb) as (B1 & B2 & B3), D as ((D1 & D2) & (D3 & D4) & (D5 & D6) & D7 & D8).
  assert (Z : (Qabs (0 - 0) <= e)%Q) by exact P.
  repeat split; try assumption; [rewrite A1, B1|rewrite A2, B2|rewrite A3, B3]; exact Z.
Qed.

Lemma F2_in : forall A B (R : A -> B -> Prop) l l' a, Forall2 R l l' -> In a l -> exists b, In b l' /\ R a b.
Proof. intros A B R l l' a H. induction H as [|x y l l' H HF IH]; [intros []|intros [I|I]]; [subst; exists y; split; [left; reflexivity|exact H]|]. destruct (IH I) as (b & I' & R'). exists b. split; [right; exact I'|exact R']. Qed.
Lemma F2_len : forall A B (R : A -> B -> Prop) l l', Forall2 R l l' -> List.length l = List.length l'.
Proof. intros A B R l l' H. induction H; cbn; congruence. Qed.
Lemma mclose_fits : forall d g' g, Forall2 (Forall2 mclose) g' g -> fits d g -> fits d g'.
Proof.
  intros d g' g H (L & S). split; [rewrite (F2_len _ _ _ _ _ H); exact L|]. intros md I. destruct (F2_in _ _ _ _ _ _ H I) as (md0 & I0 & H0).
  destruct (S _ I0) as (S1 & S2). split; [rewrite (F2_len _ _ _ _ _ H0); exact S1|]. intros tl J. destruct (F2_in _ _ _ _ _ _ H0 J) as (t0 & J0 & H1).
  destruct H1 as (E1 & E2 & _). rewrite E1, E2. exact (S2 _ J0).
Qed.

Lemma made : forall fl d g' g, float64 fl -> Forall2 (Forall2 mclose) g' g -> fits d g -> flat g' -> flat g -> geometry_compact g ->
  exists pos, get_pixel_positions_fl fl d g' false = Ok pos /\ positions_right d pos g.
Proof.
  intros fl d g' g F H FI F1 F2 C. apply (positions_diff fl d g' g F (mclose_fits _ _ _ H FI)); [|exact C].
  apply flat_diff; [discriminate|exact (mclose_diff _ _ H)|exact F1|exact F2].
Qed.

(** From the arguments of the constructors to positions of pixels, every operation in float64. *)
Theorem C109_agipd : forall fl qp ag pg g, float64 fl -> (forall q, q == 0 -> fl q == 0)%Q -> List.length qp = 4%nat ->
  (forall q, In q qp -> Qabs (fst q) <= 100000 /\ Qabs (snd q) <= 100000)%Q -> (Qabs ag <= 5000)%Q -> (Qabs pg <= 5000)%Q ->
  agipd_from_quad_positions qp ag pg (pixel_size AGIPD) = Ok g -> geometry_compact g ->
  exists gf pos, agipd_from_quad_positions_fl fl qp ag pg (pixel_size_fl fl AGIPD) = Ok gf /\
    get_pixel_positions_fl fl AGIPD gf false = Ok pos /\ positions_right AGIPD pos g.
Proof.
  intros fl qp ag pg g F Z0 L HQ HA HP E C. destruct (@agipd_metres fl F qp ag pg g HQ HA HP E) as (gf & EF & H).
  destruct (@agipd_spec qp ag pg (pixel_size AGIPD) L) as (g2 & E2 & FU & S). rewrite E in E2. injection E2 as <-.
  destruct (made fl AGIPD gf g F H (proj1 FU)) as (pos & Ep & P); [| |exact C|exists gf, pos; auto].
  - refine (C106_flat fl gf Z0 _). left. eauto.
  - intros m t tl Ht. destruct (S _ _ _ Ht) as (q & _ & (_ & _ & S1) & (_ & _ & S2) & (_ & _ & S3)). auto.
Qed.
Print Assumptions C109_agipd.

Theorem C109_lpd : forall fl qp w ag pg g, float64 fl -> (forall q, q == 0 -> fl q == 0)%Q -> (1 # 10000 <= w <= 1 # 100)%Q -> List.length qp = 4%nat ->
  (forall q, In q qp -> Qabs (fst q * w) <= 20 /\ Qabs (snd q * w) <= 20)%Q ->
  (forall x, ag = Some x -> Qabs x <= 100)%Q -> (forall x, pg = Some x -> Qabs x <= 100)%Q ->
  lpd_from_quad_positions qp w ag pg = Ok g -> geometry_compact g ->
  exists gf pos, lpd_from_quad_positions_fl fl qp (fl w) ag pg = Ok gf /\
    get_pixel_positions_fl fl LPD gf false = Ok pos /\ positions_right LPD pos g.
Proof.
  intros fl qp w ag pg g F Z0 [W1 W2] L HQ HA HP E C.
  assert (GA : small_gap ag) by (destruct ag; cbn; [apply HA; reflexivity|exact I]).
  assert (GP : small_gap pg) by (destruct pg; cbn; [apply HP; reflexivity|exact I]).
  destruct (@lpd_metres fl F qp w ag pg g W1 W2 HQ GA GP E) as (gf & EF & H).
  destruct (@lpd_spec qp w ag pg L) as (g2 & E2 & FU & S). rewrite E in E2. injection E2 as <-.
  destruct (made fl LPD gf g F H (proj1 FU)) as (pos & Ep & P); [| |exact C|exists gf, pos; auto].
  - refine (C106_flat fl gf Z0 _). right. left. eauto.
  - intros m t tl Ht. destruct (S _ _ _ Ht) as (q & _ & (_ & _ & S1) & (_ & _ & S2) & (_ & _ & S3)). auto.
Qed.
Print Assumptions C109_lpd.

Theorem C109_lpd_file : forall fl f qp w g, float64 fl -> (forall q, q == 0 -> fl q == 0)%Q ->
  (1 # 10000 <= w <= 1 # 100)%Q -> (forall q, In q qp -> Qabs (fst q) <= 1000 /\ Qabs (snd q) <= 1000)%Q ->
  (forall q m p, h5_module f q m = Some p -> Qabs (fst p) <= 1000 /\ Qabs (snd p) <= 1000)%Q ->
  (forall q m t p, h5_tile f q m t = Some p -> Qabs (fst p) <= 1000 /\ Qabs (snd p) <= 1000)%Q ->
  lpd_from_h5 f qp w = Ok g -> geometry_compact g ->
  exists gf pos, lpd_from_h5_fl fl f qp (fl w) = Ok gf /\ get_pixel_positions_fl fl LPD gf false = Ok pos /\ positions_right LPD pos g.
Proof.
  intros fl f qp w g F Z0 [W1 W2] HQ HM HT E C. destruct (@lpd_h5_metres fl F f qp w g W1 W2 HQ HM HT E) as (gf & EF & H).
  destruct (lpd_h5_spec E) as (FU & S).
  destruct (made fl LPD gf g F H (proj1 FU)) as (pos & Ep & P); [| |exact C|exists gf, pos; auto].
  - refine (C106_flat fl gf Z0 _). right. right. left. eauto.
  - intros m t tl Ht. destruct (S _ _ _ Ht) as (q & mp & tp & _ & _ & _ & (_ & _ & S1) & (_ & _ & S2) & (_ & _ & S3)). cbn [point vx vy vz] in S1, S2, S3.
    rewrite S2, S3 in S1. repeat split; [|exact S2|exact S3]. rewrite <- S1. ring.
Qed.
Print Assumptions C109_lpd_file.

Theorem C109_dssc : forall fl rs s3 f qp w g, float64 fl -> (forall q, q == 0 -> fl q == 0)%Q -> root_three rs s3 ->
  (1 # 10000 <= w <= 1 # 100)%Q -> (forall q, In q qp -> Qabs (fst q) <= 1000 /\ Qabs (snd q) <= 1000)%Q ->
  (forall q m p, h5_module f q m = Some p -> Qabs (fst p) <= 1000 /\ Qabs (snd p) <= 1000)%Q ->
  (forall q m t p, h5_tile f q m t = Some p -> Qabs (fst p) <= 1000 /\ Qabs (snd p) <= 1000)%Q ->
  dssc_from_h5 rs f qp w = Ok g -> geometry_compact g ->
  exists gf pos, dssc_from_h5_fl fl s3 f qp (fl w) = Ok gf /\ get_pixel_positions_fl fl DSSC gf false = Ok pos /\ positions_right DSSC pos g.
Proof.
  intros fl rs s3 f qp w g F Z0 R [W1 W2] HQ HM HT E C. destruct (@dssc_h5_metres fl F rs s3 R f qp w g W1 W2 HQ HM HT E) as (gf & EF & H).
  destruct (dssc_h5_spec E) as (FU & S).
  destruct (made fl DSSC gf g F H (proj1 FU)) as (pos & Ep & P); [| |exact C|exists gf, pos; auto].
  - refine (C106_flat fl gf Z0 _). right. right. right. eauto.
  - intros m t tl Ht. destruct (S _ _ _ Ht) as (q & mp & tp & _ & _ & _ & S1 & (_ & _ & S2) & (_ & _ & S3)). cbn [vz] in S2, S3.
    repeat split; [|exact S2|exact S3]. destruct (m <? 8); destruct S1 as (_ & _ & S1); cbn [point vx vy vz] in S1; rewrite S2, S3 in S1; rewrite <- S1; ring.
Qed.
Print Assumptions C109_dssc.

(** The geometries of the documentation and of the other examples are so compact. *)
Definition compactb (g : geometry) : bool :=
  forallb (forallb (fun t => vsmallb (9 # 10) (t_corner t) && vsmallb (9 # 10000) (t_ss t) && vsmallb (9 # 10000) (t_fs t))) g.
Lemma compactb_ok : forall g, compactb g = true -> geometry_compact g.
Proof.
  intros g X m t tl E. unfold compactb in X. unfold tile_at in E. destruct ((0 <=? m) && (0 <=? t)); [|discriminate]. destruct (nth_error g (Z.to_nat m)) as [md|] eqn:En; [|discriminate].
  rewrite forallb_forall in X. specialize (X _ (nth_error_In _ _ En)). rewrite forallb_forall in X. specialize (X _ (nth_error_In _ _ E)).
  apply andb_true_iff in X as [X X3]. apply andb_true_iff in X as [X1 X2]. repeat split; apply vsmallb_ok; assumption.
Qed.
Example C109_made_example :
  (forall q, q == 0 -> binary64 q == 0)%Q /\ float64 binary64 /\
  (exists g, agipd_from_quad_positions doc_quads 2 29 (pixel_size AGIPD) = Ok g /\ geometry_compact g) /\
  (exists g, lpd_from_quad_positions lpd_quads (1 # 1000) None (Some (21 # 10)%Q) = Ok g /\ geometry_compact g) /\
  (exists g, lpd_from_h5 ex_h5 lpd_quads (1 # 1000) = Ok g /\ geometry_compact g) /\
  (exists g, dssc_from_h5 ex_rs ex_h5 lpd_quads (1 # 1000) = Ok g /\ geometry_compact g).
Proof.
  split; [exact (proj1 C106_flat_example)|]. split; [exact C106_binary64|].
  repeat split; (eexists; split; [vm_compute; reflexivity|apply compactb_ok; vm_compute; reflexivity]).
Qed.
