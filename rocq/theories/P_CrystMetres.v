(** Rounding errors with CrystFEL geometry files, in metres: C107. *)

From Coq Require Import QArith Qabs Lqa.
From Verif Require Import Base PyStr M_Stacking S_Stacking S_Open L_Base M_Cxi L_Cxi7 M_Geom M_GeomFloat M_Crystfel M_CrystFloat S_Geom S_GeomFloat S_Crystfel S_CrystFloat
  L_Geom1 L_Geom4 L_Geom5 L_Geom6 L_Crystfel L_Crystfel2 L_CrystText3 L_GeomFloat L_GeomFloat2 L_GeomFloat5 L_CrystFloat L_CrystFloat2 P_GeomFloat P_CrystFloat.

Local Open Scope string_scope.
Local Open Scope Z_scope.
Local Open Scope list_scope.

(** The vectors differ by at most [e] along each of the three axes; the tiles do so, and have
    equal numbers of pixels; the geometries have the same tiles up to that. *)
Definition vec_diff (e : Q) (v w : vec) : Prop := (Qabs (vx v - vx w) <= e /\ Qabs (vy v - vy w) <= e /\ Qabs (vz v - vz w) <= e)%Q.
Definition tile_diff (e : Q) (t u : tile) : Prop :=
  vec_diff e (t_corner t) (t_corner u) /\ vec_diff e (t_ss t) (t_ss u) /\ vec_diff e (t_fs t) (t_fs u) /\
  t_ss_px t = t_ss_px u /\ t_fs_px t = t_fs_px u.
Definition geometry_diff (e : Q) (g h : geometry) : Prop :=
  forall m t, match tile_at g m t, tile_at h m t with Some a, Some b => tile_diff e a b | None, None => True | _, _ => False end.

Lemma F2_nth : forall A B (R : A -> B -> Prop) l l', Forall2 R l l' -> forall n,
  match nth_error l n, nth_error l' n with Some a, Some b => R a b | None, None => True | _, _ => False end.
Proof. intros A B R l l' H. induction H; intros [|n]; cbn; auto. exact (IHForall2 n). Qed.

Section Fl.
Variable fl : Q -> Q.
Hypothesis F : float64 fl.
Variable d : detector.
Definition EM : Q := 15 # 10 ^ 14.

Definition read_near (t' t : tile) : Prop := tile_within 20 t -> tile_diff EM t' t.

Lemma panel_m : forall D E, drel vrel D E -> (forall r, get_num E "res" = Ok r -> 1 <= r <= inject_Z (10 ^ 9))%Q ->
  rrel read_near (from_panel_dict_fl fl D) (from_panel_dict E).
Proof.
  intros D E H HR. unfold from_panel_dict, from_panel_dict_fl.
  apply bind_rel with (R := fun a b => (exists a0, a = fl a0 /\ qrel a0 b) /\ (1 <= b <= inject_Z (10 ^ 9))%Q).
  { pose proof (get_num_flr fl "res" H) as P. destruct (get_num_fl fl D "res"), (get_num E "res"); cbn in *; try contradiction; [split; [exact P|apply HR; reflexivity]|exact P]. }
  intros r' r [(r0 & -> & Hr) [R1 R2]].
  do 9 (eapply bind_rel; [apply get_num_flr; exact H|intros ? ? (? & -> & ?)]). do 4 (eapply bind_rel; [apply get_int_r; exact H|intros ? ? ->]).
  cbn [rrel]. intros (W1 & W2 & W3). unfold vec_within in *. cbn [t_corner t_ss t_fs vdiv vx vy vz] in W1, W2, W3.
  destruct W1 as (A1 & A2 & A3), W2 as (A4 & A5 & A6), W3 as (A7 & A8 & A9). unfold tile_diff, vec_diff. cbn [t_corner t_ss t_fs t_ss_px t_fs_px vdiv fvdiv vx vy vz].
  repeat split; refine (proj1 (near_read F _ _ _ _ _)); assumption.
Qed.

Lemma from_m : forall f f', drel vrel f f' -> used_res d f' -> rrel (Forall2 (Forall2 read_near)) (from_crystfel_fl fl d f) (from_crystfel d f').
Proof.
  intros f f' H U. unfold from_crystfel, from_crystfel_fl. cbv zeta. apply mapM_rel_in. intros p Hp. apply mapM_rel_in. intros a Ha.
  destruct (load_r H) as (_ & P & _). assert (Q := @drel_get cf_dict (drel vrel) (panel_name p a) _ _ P).
  apply zr_In in Hp. apply zr_In in Ha.
  destruct (dict_get (panel_name p a) (cf_panels (load_crystfel f))) as [x|], (dict_get (panel_name p a) (cf_panels (load_crystfel f'))) as [y|] eqn:Ey; try contradiction; [|reflexivity].
  apply panel_m; [exact Q|]. intros r Hr. assert (N1 : 0 < n_modules d) by (destruct d; reflexivity). assert (N2 : 0 < n_tiles d) by (destruct d; reflexivity).
  apply (U p a y r); [lia|lia|exact Ey|exact Hr].
Qed.

Lemma diff_at : forall g' g, Forall2 (Forall2 read_near) g' g -> within 20 g -> geometry_diff EM g' g.
Proof.
  intros g' g H W m t. specialize (W m t). unfold tile_at in *. destruct ((0 <=? m) && (0 <=? t)); [|exact I].
  pose proof (@F2_nth _ _ _ _ _ H (Z.to_nat m)) as N. destruct (nth_error g' (Z.to_nat m)) as [m0|], (nth_error g (Z.to_nat m)) as [m1|]; try contradiction; [|exact I].
  pose proof (@F2_nth _ _ _ _ _ N (Z.to_nat t)) as N'. destruct (nth_error m0 (Z.to_nat t)), (nth_error m1 (Z.to_nat t)); try contradiction; [|exact I].
  apply N'. exact (W _ eq_refl).
Qed.
End Fl.

(** Every coordinate of every tile read from a CrystFEL file with float64 is within 0.15 picometres of
    the exact one: the depth along the beam (coffset) and tilts of panels like the rest. *)
Theorem C107_metres_read : forall fl d f g, float64 fl -> res_usual f -> from_crystfel d f = Ok g -> within 20 g ->
  exists gf, from_crystfel_fl fl d f = Ok gf /\ geometry_diff (15 # 10 ^ 14) gf g.
Proof.
  intros fl d f g F U E W. assert (H := from_m fl F d f f (drel_refl f) (fun p a pd r _ _ => U (panel_name p a) pd r)).
  rewrite E in H. destruct (from_crystfel_fl fl d f) as [gf|e]; [|contradiction]. exists gf. split; [reflexivity|]. exact (diff_at _ _ H W).
Qed.
Print Assumptions C107_metres_read.

(** Writing a geometry and reading it back with float64 gives the geometry up to 0.15 picometres. *)
Theorem C107_metres_write_read : forall fl d g dims args, float64 fl -> full d g -> In DFrame dims -> within 20 g ->
  exists f gf, write_crystfel_fl fl d g dims args = Ok f /\ from_crystfel_fl fl d f = Ok gf /\ geometry_diff (15 # 10 ^ 14) gf g.
Proof.
  intros fl d g dims args F FU HD W.
  destruct (@crystfel_inverse d g dims args FU HD) as (f & g2 & E & E2 & S).
  assert (HW := @write_r fl F d g dims args W). rewrite E in HW. destruct (write_crystfel_fl fl d g dims args) as [f'|] eqn:Ef; [|contradiction]. cbn [rrel] in HW.
  assert (H := from_m fl F d f' f HW (@written_res fl 0%Q 0%Q d g dims args f FU E)). rewrite E2 in H.
  destruct (from_crystfel_fl fl d f') as [gf|] eqn:Eg; [|contradiction]. cbn [rrel] in H. exists f', gf. split; [reflexivity|]. split; [exact Eg|].
  assert (W2 : within 20 g2).
  { intros m t tl Ht. pose proof (S m t) as St. rewrite Ht in St. destruct (tile_at g m t) as [u|] eqn:Eu; [|contradiction].
    destruct St as ((A1 & A2 & A3) & (A4 & A5 & A6) & (A7 & A8 & A9) & _). destruct (W _ _ _ Eu) as (V1 & V2 & V3). unfold vec_within in *.
    rewrite <- A1, <- A2, <- A3, <- A4, <- A5, <- A6, <- A7, <- A8, <- A9. auto. }
  pose proof (diff_at _ _ H W2) as D. intros m t. specialize (D m t). specialize (S m t).
  destruct (tile_at gf m t) as [a|], (tile_at g2 m t) as [b|], (tile_at g m t) as [c|]; try contradiction; [|exact I].
  destruct S as ((A1 & A2 & A3) & (A4 & A5 & A6) & (A7 & A8 & A9) & S4 & S5), D as (D1 & D2 & D3 & D4 & D5).
  unfold tile_diff, vec_diff in *. rewrite A1, A2, A3, A4, A5, A6, A7, A8, A9, S4, S5. auto.
Qed.
Print Assumptions C107_metres_write_read.

(** A detector a tenth of a metre further along the beam, its slow-scan directions tilted. *)
Definition deep_g : geometry := map (map (fun t =>
  mk_tile (mk_vec (vx (t_corner t)) (vy (t_corner t)) (1 # 10)) (mk_vec (vx (t_ss t)) (vy (t_ss t)) (1 # 1000000)) (t_fs t) (t_ss_px t) (t_fs_px t))) frac_g.
Example C107_metres_example : full AGIPD deep_g /\ within 20 deep_g /\ In DFrame [DFrame; DModno; DSs; DFs] /\
  exists f, write_crystfel AGIPD deep_g [DFrame; DModno; DSs; DFs] (mk_cf_args "/entry/data" None None None None) = Ok f /\ res_usual f.
Proof.
  split; [|split; [apply withinb_ok; vm_compute; reflexivity|split; [left; reflexivity|]]].
  - destruct C107_example_agipd as (((D1 & D2) & L1 & L2) & _). unfold deep_g. split; [split; [rewrite map_length; exact D1|]|split; [rewrite map_length; exact L1|]].
    + intros md I. apply in_map_iff in I as (md0 & <- & I). rewrite map_length. destruct (D2 _ I) as (D3 & D4). split; [exact D3|].
      intros tl J. apply in_map_iff in J as (t0 & <- & J). exact (D4 _ J).
    + intros md I. apply in_map_iff in I as (md0 & <- & I). rewrite map_length. exact (L2 _ I).
  - destruct (write_crystfel AGIPD deep_g _ _) as [f|] eqn:E; [|vm_compute in E; discriminate]. exists f. split; [reflexivity|]. apply resb_ok.
    assert (X : match write_crystfel AGIPD deep_g [DFrame; DModno; DSs; DFs] (mk_cf_args "/entry/data" None None None None) with Ok f => resb f | Err _ => false end = true) by (vm_compute; reflexivity).
    rewrite E in X. exact X.
Qed.
