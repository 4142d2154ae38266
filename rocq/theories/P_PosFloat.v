(** Rounding errors in pixel positions: C109. *)

From Coq Require Import QArith Qround Qabs Lqa.
From Verif Require Import Base L_Base M_Geom M_GeomFloat S_Geom S_GeomFloat L_Geom1 L_Geom2 L_Geom3 L_Geom4 L_GeomFloat L_GeomFloat3 L_GeomFloat5 L_CrystText3 P_Geom
  M_PosFloat S_PosFloat L_PosFloat.
Local Open Scope Z_scope.
Local Open Scope list_scope.

Lemma vclose_veq : forall e a b c, vclose e a b -> veq b c -> vclose e a c.
Proof. intros e a b c (A & B & C) (E1 & E2 & E3). unfold vclose. rewrite <- E1, <- E2, <- E3. repeat split; assumption. Qed.
Lemma qtri : forall x y z e : Q, (Qabs (x - y) <= e -> Qabs (z - y) <= e -> Qabs (x - z) <= e + e)%Q.
Proof. intros x y z e A B. apply Qabs_Qle_condition in A, B. apply Qabs_Qle_condition. lra. Qed.
Lemma vclose_tri : forall e a b c, vclose e a b -> vclose e c b -> vclose (e + e) a c.
Proof. intros e a b c (A1 & A2 & A3) (B1 & B2 & B3). split; [|split]; eapply qtri; eassumption. Qed.

(** ** C109: rounding of positions *)

(** With any arithmetic which keeps float64's precision, get_pixel_positions gives the first corner of each pixel to 5e-15 m. *)
Theorem C109_corners : forall fl d g, float64 fl -> fits d g -> geometry_small g -> exists pos, get_pixel_positions_fl fl d g false = Ok pos /\
  forall m t tl s f, tile_at g m t = Some tl -> in_tile d s f ->
    vclose (5 # 10 ^ 15) (pos m (fst (data_pixel d t s f)) (snd (data_pixel d t s f))) (point tl (fst (pixel_origin d s f)) (snd (pixel_origin d s f))).
Proof.
  intros fl d g F H S. destruct (C49_corners d g H) as (pos & E & A & _). pose proof (positions_r F d false S) as R. rewrite E in R.
  destruct (get_pixel_positions_fl fl d g false) as [pos'|]; [|contradiction]. exists pos'. split; [reflexivity|]. intros m t tl s f Ht Hi.
  exact (vclose_veq _ _ _ _ (vnear_close (R _ _ _)) (A m t tl s f Ht Hi)).
Qed.
Print Assumptions C109_corners.

(** The same for the centre, [v]. *)
Theorem C109_centres : forall fl d g, float64 fl -> fits d g -> geometry_small g -> exists pos, get_pixel_positions_fl fl d g true = Ok pos /\
  forall m t tl s f, tile_at g m t = Some tl -> in_tile d s f ->
    exists v, veq (vmul (inject_Z (Z.of_nat (List.length (outline d)))) v) (vsum (map (corner_point d tl s f) (outline d))) /\
      vclose (5 # 10 ^ 15) (pos m (fst (data_pixel d t s f)) (snd (data_pixel d t s f))) v.
Proof.
  intros fl d g F H S. destruct (C49_centres d g H) as (pos & E & A). pose proof (positions_r F d true S) as R. rewrite E in R.
  destruct (get_pixel_positions_fl fl d g true) as [pos'|]; [|contradiction]. exists pos'. split; [reflexivity|]. intros m t tl s f Ht Hi.
  eexists. split; [exact (A m t tl s f Ht Hi)|]. exact (vnear_close (R _ _ _)).
Qed.
Print Assumptions C109_centres.

(** data_coords_to_positions: a point of a pixel, at any fraction along it. *)
Theorem C109_coordinates : forall fl d g m t tl s f u w, float64 fl -> d <> DSSC -> full d g -> geometry_small g -> tile_at g m t = Some tl -> in_tile d s f ->
  (0 <= u < 1)%Q -> (0 <= w < 1)%Q ->
  exists v, data_coords_to_position_fl fl d g m (inject_Z (fst (data_pixel d t s f)) + u) (inject_Z (snd (data_pixel d t s f)) + w) = Ok v /\
  vclose (5 # 10 ^ 15) v (point tl (inject_Z s + u) (inject_Z f + w)).
Proof.
  intros fl d g m t tl s f u w F Hd Hg S Ht Hi Hu Hw. destruct (C49_coordinates d g m t tl s f u w Hd Hg Ht Hi Hu Hw) as (v & E & V).
  destruct (fits_at (proj1 Hg) Ht) as (Hm & Htt & _). pose proof (data_pixel_in Htt Hi) as Hin. set (b := snd (data_pixel d t s f)) in *.
  assert (B : (Qabs (inject_Z b + w) <= 520)%Q).
  { assert (B1 : 0 <= b <= 512) by (unfold b; destruct (data_pixel d t s f); destruct Hin as [_ Hin]; cbn [snd] in *; destruct d; cbn in Hin; lia).
    destruct B1 as [B1 B2]. rewrite Zle_Qle in B1, B2. change (inject_Z 0) with 0%Q in B1. change (inject_Z 512) with 512%Q in B2. apply Qabs_Qle_condition. lra. }
  pose proof (data_coords_r F d m (inject_Z (fst (data_pixel d t s f)) + u) S B) as R. rewrite E in R.
  destruct (data_coords_to_position_fl fl d g m (inject_Z (fst (data_pixel d t s f)) + u) (inject_Z b + w)) as [v'|]; [|contradiction]. exists v'. split; [reflexivity|].
  exact (vclose_veq _ _ _ _ (vnear_close R) V).
Qed.
Print Assumptions C109_coordinates.

(** The two agree on the corners and centres of pixels to 1e-14 m. *)
Theorem C109_agree : forall fl d g (centre : bool), float64 fl -> d <> DSSC -> full d g -> geometry_small g ->
  exists pos, get_pixel_positions_fl fl d g centre = Ok pos /\
  forall m ss fs, 0 <= m < 16 -> in_module d ss fs ->
    let h := if centre then (1 # 2)%Q else 0%Q in
    exists v, data_coords_to_position_fl fl d g m (inject_Z ss + h) (inject_Z fs + h) = Ok v /\ vclose (1 # 10 ^ 14) v (pos m ss fs).
Proof.
  intros fl d g c F Hd Hg S. destruct (C49_agree d g c Hd Hg) as (pos & E & A). pose proof (positions_r F d c S) as R. rewrite E in R.
  destruct (get_pixel_positions_fl fl d g c) as [pos'|]; [|contradiction]. exists pos'. split; [reflexivity|]. intros m ss fs Hm Hin h.
  destruct (A m ss fs Hm Hin) as (v & Ev & Vv). fold h in Ev.
  assert (B : (Qabs (inject_Z fs + h) <= 520)%Q).
  { assert (B1 : 0 <= fs <= 512) by (destruct Hin as [_ Hin]; destruct d; cbn in Hin; lia).
    destruct B1 as [B1 B2]. rewrite Zle_Qle in B1, B2. change (inject_Z 0) with 0%Q in B1. change (inject_Z 512) with 512%Q in B2. apply Qabs_Qle_condition. unfold h. destruct c; lra. }
  pose proof (data_coords_r F d m (inject_Z ss + h) S B) as R2. rewrite Ev in R2.
  destruct (data_coords_to_position_fl fl d g m (inject_Z ss + h) (inject_Z fs + h)) as [v'|]; [|contradiction]. exists v'. split; [reflexivity|].
  pose proof (vclose_veq _ _ _ _ (vnear_close R2) Vv) as X. destruct (vclose_tri _ _ _ _ X (vnear_close (R m ss fs))) as (Y1 & Y2 & Y3).
  split; [|split]; (eapply Qle_trans; [eassumption|num]).
Qed.
Print Assumptions C109_agree.

(** The distortion array, in float32: corners of pixels are right to 0.2 micrometres, or to one micrometre relative to the
    shifted origin (dy, dx).  With the shift no number is negative, and the smallest x and y are exactly 0. *)
Theorem C109_distortion : forall fl f32 d g (allow : bool), float64 fl -> float32 f32 -> fits d g -> geometry_small g ->
  exists a dy dx, to_distortion_array_fl fl f32 d g allow = Ok a /\
  (forall m t tl s f n o, tile_at g m t = Some tl -> in_tile d s f -> nth_error (outline d) n = Some o ->
     let v := corner_point d tl s f o in
     tclose (if allow then 2 # 10 ^ 7 else 1 # 10 ^ 6) (a (m * mod_ss d + fst (data_pixel d t s f)) (snd (data_pixel d t s f)) n) (vz v, vy v - dy, vx v - dx)%Q) /\
  (allow = true -> dy = 0%Q /\ dx = 0%Q) /\
  (allow = false ->
     (forall r c n, in_array d r c n -> (0 <= d_y (a r c n) /\ 0 <= d_x (a r c n))%Q) /\
     (exists r c n, in_array d r c n /\ (d_y (a r c n) == 0)%Q) /\
     (exists r c n, in_array d r c n /\ (d_x (a r c n) == 0)%Q)).
Proof.
  intros fl f32 d g allow F G H S. destruct (C51_corners d g allow H) as (a & dy & dx & E & A & B & _). pose proof (distortion_r F G d allow S) as R. rewrite E in R.
  destruct (to_distortion_array_fl fl f32 d g allow) as [a'|]; [|contradiction]. destruct R as [R1 R2]. exists a', dy, dx. split; [reflexivity|]. split; [|split; [exact B|exact R2]].
  intros m t tl s f n o Ht Hi Hn v. pose proof (A m t tl s f n o Ht Hi Hn) as K. cbv zeta in K. fold v in K. destruct K as (K1 & K2 & K3).
  destruct (R1 (m * mod_ss d + fst (data_pixel d t s f)) (snd (data_pixel d t s f)) n) as (C1 & C2 & C3).
  unfold tclose, d_z, d_y, d_x in *. cbn [fst snd] in *. rewrite <- K1, <- K2, <- K3. repeat split; assumption.
Qed.
Print Assumptions C109_distortion.

(** What is refused is refused alike. *)
Theorem C109_refused : forall fl f32 d g e, float64 fl -> float32 f32 -> geometry_small g ->
  (forall centre, get_pixel_positions_fl fl d g centre = Err e <-> get_pixel_positions d g centre = Err e) /\
  (forall m ss fs, (Qabs fs <= 520)%Q -> (data_coords_to_position_fl fl d g m ss fs = Err e <-> data_coords_to_position d g m ss fs = Err e)) /\
  (forall allow, to_distortion_array_fl fl f32 d g allow = Err e <-> to_distortion_array d g allow = Err e).
Proof.
  intros fl f32 d g e F G S.
  assert (X : forall A (R : A -> A -> Prop) (a b : res A), rrel R a b -> (a = Err e <-> b = Err e)).
  { intros A R [a|a] [b|b] H; cbn in H; try contradiction; split; intros K; congruence. }
  split; [|split].
  - intros c. exact (X _ _ _ _ (positions_r F d c S)).
  - intros m ss fs B. exact (X _ _ _ _ (data_coords_r F d m ss S B)).
  - intros allow. exact (X _ _ _ _ (distortion_r F G d allow S)).
Qed.
Print Assumptions C109_refused.

(** Rounding to the nearest number of 24 binary places meets what is asked of float32. *)
Theorem C109_binary32 : float32 binary32.
Proof. exact binary32_float32. Qed.
Print Assumptions C109_binary32.

(** *** The hypotheses are met *)
Definition vsmallb (M : Q) (v : vec) : bool := Qle_bool (Qabs (vx v)) M && Qle_bool (Qabs (vy v)) M && Qle_bool (Qabs (vz v)) M.
Lemma vsmallb_ok : forall M v, vsmallb M v = true -> vsmall M v.
Proof. intros M v H. apply andb_true_iff in H as [H H3]. apply andb_true_iff in H as [H1 H2]. apply Qle_bool_iff in H1, H2, H3. repeat split; assumption. Qed.
Lemma small_ok : forall g, forallb (forallb (fun t => vsmallb 1 (t_corner t) && vsmallb (1 # 1000) (t_ss t) && vsmallb (1 # 1000) (t_fs t))) g = true -> geometry_small g.
Proof.
  intros g H m t tl Ht. unfold tile_at in Ht. destruct ((0 <=? m) && (0 <=? t)); [|discriminate]. destruct (nth_error g (Z.to_nat m)) as [md|] eqn:E; [|discriminate].
  rewrite forallb_forall in H. specialize (H _ (nth_error_In _ _ E)). rewrite forallb_forall in H. specialize (H _ (nth_error_In _ _ Ht)).
  apply andb_true_iff in H as [H H3]. apply andb_true_iff in H as [H1 H2]. repeat split; apply vsmallb_ok; assumption.
Qed.
(** An AGIPD at the positions of the documentation's example; the centre of its first pixel in float64 is not the exact one. *)
Example C109_example : exists g pos pos', agipd_from_quad_positions ex_quads 2 29 (pixel_size AGIPD) = Ok g /\ full AGIPD g /\ geometry_small g /\
  get_pixel_positions AGIPD g true = Ok pos /\ get_pixel_positions_fl binary64 AGIPD g true = Ok pos' /\
  ~ (vx (pos' 0%Z 0%Z 0%Z) == vx (pos 0%Z 0%Z 0%Z))%Q /\ (Qabs (vx (pos' 0%Z 0%Z 0%Z) - vx (pos 0%Z 0%Z 0%Z)) <= 5 # 10 ^ 15)%Q.
Proof.
  destruct (@agipd_spec ex_quads 2 29 (pixel_size AGIPD) eq_refl) as (g & E & Fg & _).
  assert (S : geometry_small g).
  { apply small_ok. assert (X : match agipd_from_quad_positions ex_quads 2 29 (pixel_size AGIPD) with
      | Ok g => forallb (forallb (fun t => vsmallb 1 (t_corner t) && vsmallb (1 # 1000) (t_ss t) && vsmallb (1 # 1000) (t_fs t))) g | Err _ => false end = true) by (vm_compute; reflexivity).
    rewrite E in X. exact X. }
  pose proof (positions_r binary64_float64 AGIPD true S) as R.
  assert (X : match agipd_from_quad_positions ex_quads 2 29 (pixel_size AGIPD) with
    | Ok g => match get_pixel_positions AGIPD g true, get_pixel_positions_fl binary64 AGIPD g true with Ok p, Ok p' => Qeq_bool (vx (p' 0 0 0)) (vx (p 0 0 0)) | _, _ => true end
    | Err _ => true end = false) by (vm_compute; reflexivity).
  rewrite E in X. destruct (get_pixel_positions AGIPD g true) as [p|] eqn:E1; [|discriminate]. destruct (get_pixel_positions_fl binary64 AGIPD g true) as [p'|] eqn:E2; [|contradiction].
  exists g, p, p'. split; [exact E|]. split; [exact Fg|]. split; [exact S|]. split; [exact E1|]. split; [exact E2|]. split.
  - intros K. apply Qeq_bool_iff in K. congruence.
  - exact (proj1 (proj1 (R 0 0 0))).
Qed.
(** One tile of a DSSC: the second corner of its first pixel in the array is near the exact one. *)
Definition dssc_one : geometry := [[mk_tile (mk_vec (1 # 2) (1 # 4) 0) (mk_vec 0 (1 # 5000) 0) (mk_vec (1 # 4237) 0 0) 128 256]].
Example C109_dssc_example : fits DSSC dssc_one /\ geometry_small dssc_one /\
  exists a, to_distortion_array_fl binary64 binary32 DSSC dssc_one true = Ok a /\
    (Qabs (d_x (a 0%Z 0%Z 1%nat) - ((1 # 2) + (1 # 4237))) <= 2 # 10 ^ 7)%Q /\ ~ (d_x (a 0%Z 0%Z 1%nat) == (1 # 2) + (1 # 4237))%Q.
Proof.
  assert (H : fits DSSC dssc_one).
  { split; [cbn; lia|]. intros md [<-|[]]. split; [cbn; lia|]. intros tl [<-|[]]. split; reflexivity. }
  assert (S : geometry_small dssc_one) by (apply small_ok; vm_compute; reflexivity).
  split; [exact H|]. split; [exact S|].
  assert (X : match to_distortion_array_fl binary64 binary32 DSSC dssc_one true with Ok a => Qle_bool (Qabs (d_x (a 0 0 1%nat) - ((1 # 2) + (1 # 4237)))) (2 # 10 ^ 7) && negb (Qeq_bool (d_x (a 0 0 1%nat)) ((1 # 2) + (1 # 4237))) | Err _ => false end = true)
    by (vm_compute; reflexivity).
  destruct (to_distortion_array_fl binary64 binary32 DSSC dssc_one true) as [a|] eqn:E; [|discriminate]. exists a. split; [reflexivity|]. apply andb_true_iff in X as [X1 X2].
  split; [apply Qle_bool_iff; exact X1|]. intros K. apply Qeq_bool_iff in K. rewrite K in X2. discriminate.
Qed.
(** Too many tiles for an AGIPD module, with rounding as without. *)
Example C109_refused_example : geometry_small [repeat (mk_tile vzero vzero vzero 64 128) 9] /\
  get_pixel_positions_fl binary64 AGIPD [repeat (mk_tile vzero vzero vzero 64 128) 9] true = Err EValueError.
Proof.
  assert (S : geometry_small [repeat (mk_tile vzero vzero vzero 64 128) 9]) by (apply small_ok; vm_compute; reflexivity). split; [exact S|].
  apply (C109_refused binary64 binary32 AGIPD _ EValueError binary64_float64 binary32_float32 S). vm_compute. reflexivity.
Qed.
