(** Rounding errors with CrystFEL geometry files: C107. *)

From Coq Require Import QArith Qround Qabs.
From Verif Require Import Base L_Base PyStr M_Geom M_GeomFloat M_Crystfel M_CrystFloat S_Geom S_GeomFloat S_Crystfel S_CrystFloat L_Geom1 L_Geom4 L_Geom5 L_Geom6
  L_Crystfel L_Crystfel2 L_CrystText3 L_GeomFloat L_GeomFloat2 L_GeomFloat5 L_CrystFloat L_CrystFloat2 L_GeomNd P_Geom P_GeomFloat.

Local Open Scope string_scope.
Local Open Scope Z_scope.
Local Open Scope list_scope.

(** ** C107: rounding errors in CrystFEL files do not move pixels *)

(** Reading a file with float64 gives the images of exact arithmetic, for
    coordinates up to 20 m. *)
Theorem C107_read : forall A fl (nan : A) rs s3 d f g shape data out, float64 fl -> root_three rs s3 -> res_usual f ->
  from_crystfel d f = Ok g -> within 20 g -> numbers_clear (1 # 10 ^ 8) (pixel_shape rs d) g ->
  exists gf, from_crystfel_fl fl d f = Ok gf /\
    position_modules_fast_fl fl nan (px_shape_fl fl s3 d) d gf shape data out = position_modules_fast nan rs d g shape data out.
Proof.
  intros A fl nan rs s3 d f g shape data out F R U E W C.
  assert (H := @from_r fl F rs s3 R d f f (drel_refl f) (fun p a pd r _ _ => U (panel_name p a) pd r)).
  rewrite E in H. destruct (from_crystfel_fl fl d f) as [gf|e]; [|contradiction]. exists gf. split; [reflexivity|].
  apply image_close; [exact (within_close H W)|exact (clear_tiles C)].
Qed.
Print Assumptions C107_read.

(** The same files are refused, with the same exceptions. *)
Theorem C107_refused : forall fl d f e, float64 fl -> res_usual f -> (from_crystfel_fl fl d f = Err e <-> from_crystfel d f = Err e).
Proof.
  intros fl d f e F U. assert (R : root_three ex_rs ex_s3) by (repeat split; vm_compute; first [reflexivity|discriminate]).
  assert (H := @from_r fl F _ _ R d f f (drel_refl f) (fun p a pd r _ _ => U (panel_name p a) pd r)).
  destruct (from_crystfel_fl fl d f), (from_crystfel d f); cbn in H; try contradiction; split; intros K; congruence.
Qed.
Print Assumptions C107_refused.

(** A geometry written to a file and read back, all with float64, gives the images
    which it gave before. *)
Theorem C107_write_read : forall A fl (nan : A) rs s3 d g dims args shape data out, float64 fl -> root_three rs s3 ->
  full d g -> In DFrame dims -> within 20 g -> numbers_clear (1 # 10 ^ 8) (pixel_shape rs d) g ->
  exists f gf, write_crystfel_fl fl d g dims args = Ok f /\ from_crystfel_fl fl d f = Ok gf /\
    position_modules_fast_fl fl nan (px_shape_fl fl s3 d) d gf shape data out = position_modules_fast_fl fl nan (px_shape_fl fl s3 d) d g shape data out /\
    position_modules_fast_fl fl nan (px_shape_fl fl s3 d) d gf shape data out = position_modules_fast nan rs d g shape data out.
Proof.
  intros A fl nan rs s3 d g dims args shape data out F R FU HD W C.
  destruct (@crystfel_inverse d g dims args FU HD) as (f & g2 & E & E2 & S).
  assert (HW := @write_r fl F d g dims args W). rewrite E in HW. destruct (write_crystfel_fl fl d g dims args) as [f'|] eqn:Ef; [|contradiction]. cbn [rrel] in HW.
  assert (H := @from_r fl F rs s3 R d f' f HW (@written_res fl rs s3 d g dims args f FU E)). rewrite E2 in H.
  destruct (from_crystfel_fl fl d f') as [gf|] eqn:Eg; [|contradiction]. cbn [rrel] in H. exists f', gf. split; [reflexivity|]. split; [exact Eg|].
  assert (W2 : within 20 g2).
  { intros m t tl Ht. pose proof (S m t) as St. rewrite Ht in St. destruct (tile_at g m t) as [u|] eqn:Eu; [|contradiction].
    destruct St as ((A1 & A2 & A3) & (A4 & A5 & A6) & (A7 & A8 & A9) & _). destruct (W _ _ _ Eu) as (V1 & V2 & V3). unfold vec_within in *.
    rewrite <- A1, <- A2, <- A3, <- A4, <- A5, <- A6, <- A7, <- A8, <- A9. auto. }
  assert (L : List.length g2 = List.length g /\ forall n md2 md, nth_error g2 n = Some md2 -> nth_error g n = Some md -> List.length md2 = List.length md).
  { destruct FU as (_ & L1 & L2). unfold from_crystfel in E2. cbv zeta in E2. split.
    - apply mapM_length in E2. rewrite zr_length in E2. rewrite E2. apply Nat2Z.inj. rewrite L1. destruct d; reflexivity.
    - intros n md2 md N2 N. apply nth_error_In in N. specialize (L2 _ N). apply nth_error_In in N2. destruct (L_GeomNd.mapM_In E2 N2) as (p & _ & Ep).
      apply mapM_length in Ep. rewrite zr_length in Ep. rewrite Ep. apply Nat2Z.inj. rewrite L2. destruct d; reflexivity. }
  assert (K := @close_same fl rs s3 d gf g2 g (within_close H W2) S (proj1 L) (proj2 L)).
  assert (I1 := @image_close A fl nan (px_shape_fl fl s3 d) rs d gf g shape data out K (clear_tiles C)).
  assert (K2 : Forall2 (Forall2 (close fl (px_shape_fl fl s3 d) (pixel_shape rs d))) g g).
  { assert (X : forall md tl, In md g -> In tl md -> close fl (px_shape_fl fl s3 d) (pixel_shape rs d) tl tl).
    { intros md tl H1 H2. destruct (in_tile H1 H2) as (m & t & Ht). destruct (W _ _ _ Ht) as ((A1 & A2 & _) & (A3 & A4 & _) & (A5 & A6 & _)).
      assert (N : forall q, (Qabs q <= 20)%Q -> near (15 # 10 ^ 14) 40 q q).
      { intros q Hq. eapply near_weaken; [apply near_exact; exact Hq|discriminate|discriminate]. }
      split; [reflexivity|]. split; [reflexivity|].
      split; [apply (proj1 (in_px F R d (N _ A1)))|]. split; [apply (proj2 (in_px F R d (N _ A2)))|]. split; [apply (proj1 (in_px F R d (N _ A3)))|].
      split; [apply (proj2 (in_px F R d (N _ A4)))|]. split; [apply (proj1 (in_px F R d (N _ A5)))|apply (proj2 (in_px F R d (N _ A6)))]. }
    clear - X. induction g as [|md g IH]; constructor; [|apply IH; intros; eapply X; [right|]; eassumption].
    assert (X' : forall tl, In tl md -> close fl (px_shape_fl fl s3 d) (pixel_shape rs d) tl tl) by (intros tl; apply X; left; reflexivity).
    clear - X'. induction md as [|t md IH]; constructor; [apply X'; left; reflexivity|apply IH; intros; apply X'; right; assumption]. }
  assert (I2 := @image_close A fl nan (px_shape_fl fl s3 d) rs d g g shape data out K2 (clear_tiles C)).
  split; [rewrite I1, I2; reflexivity|exact I1].
Qed.
Print Assumptions C107_write_read.

(** The hypotheses are met by the geometries of the tests, with steps of a pixel
    and gaps of a fraction of one. *)
Definition withinb (b : Q) (g : geometry) : bool :=
  forallb (fun tl => forallb (fun v => Qle_bool (Qabs (vx v)) b && Qle_bool (Qabs (vy v)) b && Qle_bool (Qabs (vz v)) b) [t_corner tl; t_ss tl; t_fs tl]) (List.concat g).
Lemma withinb_ok : forall b g, withinb b g = true -> within b g.
Proof.
  intros b g H m t tl Ht. apply canvas_tile in Ht. unfold withinb in H. rewrite forallb_forall in H. specialize (H _ Ht). rewrite forallb_forall in H.
  assert (X : forall v, In v [t_corner tl; t_ss tl; t_fs tl] -> vec_within b v).
  { intros v I. specialize (H _ I). apply andb_true_iff in H as [H H3]. apply andb_true_iff in H as [H1 H2]. apply Qle_bool_iff in H1, H2, H3. repeat split; assumption. }
  split; [apply X; left; reflexivity|]. split; apply X; [right; left; reflexivity|right; right; left; reflexivity].
Qed.
Definition numbers_clearb (e : Q) (px : Q * Q) (g : geometry) : bool :=
  forallb (fun tl => forallb (fun v => clearb e (vx v / fst px) && clearb e (vy v / snd px)) [t_corner tl; t_ss tl; t_fs tl]) (List.concat g).
Lemma numbers_clearb_ok : forall e px g, (e < 1 # 2)%Q -> numbers_clearb e px g = true -> numbers_clear e px g.
Proof.
  intros e px g E H m t tl Ht. apply canvas_tile in Ht. unfold numbers_clearb in H. rewrite forallb_forall in H. specialize (H _ Ht). rewrite forallb_forall in H.
  assert (X : forall v, In v [t_corner tl; t_ss tl; t_fs tl] -> vec_clear e px v).
  { intros v I. specialize (H _ I). apply andb_true_iff in H as [H1 H2]. split; apply clearb_ok; assumption. }
  split; [apply X; left; reflexivity|]. split; apply X; [right; left; reflexivity|right; right; left; reflexivity].
Qed.
Definition resb (f : cffile) : bool :=
  forallb (fun np => match get_num (snd np) "res" with Ok r => Qle_bool 1 r && Qle_bool r (inject_Z (10 ^ 9)) | Err _ => true end) (cf_panels (load_crystfel f)).
Lemma resb_ok : forall f, resb f = true -> res_usual f.
Proof.
  intros f H name pd r E Er. unfold resb in H. rewrite forallb_forall in H. apply dict_get_In in E. specialize (H _ E). cbn [snd] in H. rewrite Er in H.
  apply andb_true_iff in H as [H1 H2]. apply Qle_bool_iff in H1, H2. split; assumption.
Qed.

Definition frac_g : geometry := match agipd_from_quad_positions frac_quads (201 # 100) 29 (pixel_size AGIPD) with Ok g => g | Err _ => [] end.
Definition dssc_g : geometry := match dssc_from_h5 ex_rs ex_h5 lpd_quads (1 # 1000) with Ok g => g | Err _ => [] end.
Example C107_example_agipd : full AGIPD frac_g /\ within 20 frac_g /\ numbers_clear (1 # 10 ^ 8) (pixel_shape ex_rs AGIPD) frac_g /\
  exists f, write_crystfel AGIPD frac_g [DFrame; DModno; DSs; DFs] (mk_cf_args "/entry/data" None None None None) = Ok f /\ res_usual f.
Proof.
  split; [|split; [apply withinb_ok; vm_compute; reflexivity|split; [apply numbers_clearb_ok; vm_compute; reflexivity|]]].
  - unfold frac_g. destruct (@agipd_spec frac_quads (201 # 100) 29 (pixel_size AGIPD) eq_refl) as (g & E & Fu & _). rewrite E. exact Fu.
  - destruct (write_crystfel AGIPD frac_g _ _) as [f|] eqn:E; [|vm_compute in E; discriminate]. exists f. split; [reflexivity|]. apply resb_ok.
    assert (X : match write_crystfel AGIPD frac_g [DFrame; DModno; DSs; DFs] (mk_cf_args "/entry/data" None None None None) with Ok f => resb f | Err _ => false end = true) by (vm_compute; reflexivity).
    rewrite E in X. exact X.
Qed.
Example C107_example_dssc : root_three ex_rs ex_s3 /\ full DSSC dssc_g /\ within 20 dssc_g /\ numbers_clear (1 # 10 ^ 8) (pixel_shape ex_rs DSSC) dssc_g.
Proof.
  split; [repeat split; vm_compute; first [reflexivity|discriminate]|]. 
  assert (X : dssc_from_h5 ex_rs ex_h5 lpd_quads (1 # 1000) = Ok dssc_g) by (vm_compute; reflexivity).
  split; [exact (proj1 (dssc_h5_spec X))|]. split; [apply withinb_ok; vm_compute; reflexivity|apply numbers_clearb_ok; vm_compute; reflexivity].
Qed.

(** The geometry read back is in general another one: of 0.023 m, written and
    read with 53 binary places, the last place is lost. *)
Definition back (v : Q) : Q := fdiv binary64 (binary64 (fdiv binary64 v (pixel_size_fl binary64 AGIPD))) (binary64 (fdiv binary64 1 (pixel_size_fl binary64 AGIPD))).
Example C107_example_inexact : exists v, (binary64 v == v)%Q /\ ~ (back v == v)%Q.
Proof. exists (binary64 (23 # 1000)). split; [vm_compute; reflexivity|vm_compute; discriminate]. Qed.
