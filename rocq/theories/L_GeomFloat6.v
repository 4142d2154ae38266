(** Rounding errors of DSSC geometries. *)

From Coq Require Import QArith Qround Qabs Lqa.
From Verif Require Import Base L_Base M_Geom M_GeomFloat S_Geom S_GeomFloat L_Geom1 L_Geom2 L_GeomFloat L_GeomFloat2 L_GeomFloat3 L_GeomFloat4.

Set Implicit Arguments.
Unset Strict Implicit.

Local Open Scope Z_scope.
Local Open Scope list_scope.

Section Div.
Variable fl : Q -> Q.
Hypothesis F : float64 fl.

(** Division by a number between [lo] and [hi]. *)
Lemma near_div_b : forall e1 M1 x1 y1 ep p1 p lo hi e M, near e1 M1 x1 y1 -> (0 < lo)%Q -> (lo <= p)%Q -> (p <= hi)%Q -> (Qabs (p1 - p) <= ep)%Q -> (ep <= (1 # 10) * lo)%Q ->
  let d := ((e1 * hi + M1 * ep) * (2 / (lo * lo)))%Q in
  (M1 / lo <= 10 ^ 29)%Q -> (d <= 10 ^ 29)%Q -> (d + U * (d + M1 / lo) + T <= e)%Q -> (M1 / lo <= M)%Q ->
  near e M (fdiv fl x1 p1) (y1 / p).
Proof.
  intros e1 M1 x1 y1 ep p1 p lo hi e M N L0 L H Hp Hep d HM Hd E1 E2. pose proof (near_nonneg N) as [P1 P2].
  assert (P : (0 < p)%Q) by lra. assert (Pe : (0 <= ep)%Q) by (pose proof (Qabs_nonneg (p1 - p)); lra).
  assert (I : (M1 / p <= M1 / lo)%Q).
  { apply Qle_shift_div_l; [exact L0|]. setoid_replace (M1 / p * lo)%Q with ((M1 * lo) / p)%Q by (field; lra).
    apply Qle_shift_div_r; [exact P|]. apply Qmult_le_compat_nonneg; split; lra. }
  assert (K : (2 / (p * p) <= 2 / (lo * lo))%Q).
  { assert (S : (lo * lo <= p * p)%Q) by (apply Qmult_le_compat_nonneg; split; lra). assert (S0 : (0 < lo * lo)%Q) by (apply (Qmult_lt_0_compat _ _ L0 L0)).
    assert (S1 : (0 < p * p)%Q) by lra. apply Qle_shift_div_l; [exact S0|]. setoid_replace (2 / (p * p) * (lo * lo))%Q with ((2 * (lo * lo)) / (p * p))%Q by (field; lra).
    apply Qle_shift_div_r; [exact S1|]. lra. }
  set (d' := ((e1 * p + M1 * ep) * (2 / (p * p)))%Q).
  assert (D : (d' <= d)%Q).
  { unfold d', d. assert (A1 : (e1 * p <= e1 * hi)%Q) by (apply Qmult_le_compat_nonneg; split; lra).
    assert (A2 : (0 <= e1 * p)%Q) by (apply Qmult_le_0_compat; lra). assert (A3 : (0 <= M1 * ep)%Q) by (apply Qmult_le_0_compat; lra).
    assert (A4 : (0 <= 2 / (p * p))%Q) by (apply Qle_shift_div_l; [apply (Qmult_lt_0_compat _ _ P P)|lra]).
    apply Qmult_le_compat_nonneg; split; lra. }
  assert (UD : (U * (d' + M1 / p) <= U * (d + M1 / lo))%Q).
  { rewrite !(Qmult_comm U). apply Qmult_le_compat_r; [lra|discriminate]. }
  eapply near_div with (ep := ep); [exact F|exact N|exact P|exact Hp|lra|lra|fold d'; lra|fold d'; lra|lra].
Qed.
End Div.

Lemma roots : forall rs s3, root_three rs s3 -> (866 # 1000 <= rs)%Q /\ (rs <= 867 # 1000)%Q /\ (173 # 100 <= (3 # 2) / rs)%Q /\ ((3 # 2) / rs <= 174 # 100)%Q /\ (Qabs (s3 - (3 # 2) / rs) <= 2 # 10 ^ 15)%Q.
Proof.
  intros rs s3 (P1 & P2 & A & B). apply Qabs_Qle_condition in A. apply Qabs_Qle_condition in B.
  change (1 # 10 ^ 15)%Q with (1 # 1000000000000000)%Q in A, B. change (2 # 10 ^ 15)%Q with (2 # 1000000000000000)%Q.
  assert (R1 : (866 # 1000 <= rs)%Q) by (apply Qnot_lt_le; intros K; nra).
  assert (R2 : (rs <= 867 # 1000)%Q) by (apply Qnot_lt_le; intros K; nra).
  assert (S1 : (1732 # 1000 <= s3)%Q) by (apply Qnot_lt_le; intros K; nra).
  split; [exact R1|]. split; [exact R2|]. set (s := ((3 # 2) / rs)%Q). assert (E : (s * rs == 3 # 2)%Q) by (unfold s; field; lra).
  assert (L1 : (173 # 100 <= s)%Q) by (apply Qle_shift_div_l; [exact P1|lra]). assert (L2 : (s <= 174 # 100)%Q) by (apply Qle_shift_div_r; [exact P1|lra]).
  split; [exact L1|]. split; [exact L2|]. clearbody s.
  assert (Q1 : (s * s * (rs * rs) == 9 # 4)%Q) by (setoid_replace (s * s * (rs * rs))%Q with ((s * rs) * (s * rs))%Q by ring; rewrite E; reflexivity).
  set (r := (rs * rs)%Q) in *. set (t := (s * s)%Q) in *.
  assert (T1 : (t - 3 <= 41 # 10000000000000000)%Q) by (apply Qnot_lt_le; intros K; nra).
  assert (T2 : (- (41 # 10000000000000000) <= t - 3)%Q) by (apply Qnot_lt_le; intros K; nra).
  apply Qabs_Qle_condition. assert (M : ((s3 - s) * (s3 + s) == s3 * s3 - t)%Q) by (unfold t; ring). split; apply Qnot_lt_le; intros K; nra.
Qed.

Section Dssc.
Variable fl : Q -> Q.
Hypothesis F : float64 fl.
Variable rs s3 : Q.
Hypothesis R : root_three rs s3.
Let ps := pixel_size DSSC.
Let psf := pixel_size_fl fl DSSC.

Lemma near_dpsf : near (2 # 10 ^ 19) (3 # 10000) psf ps.
Proof. split; [apply (near_ps F)|num]. Qed.

Lemma near_py : (Qabs (snd (dssc_pixel_shape_fl fl s3) - rs * ps) <= 2 # 10 ^ 18)%Q.
Proof.
  destruct (roots R) as (R1 & R2 & S1 & S2 & S3). cbn [dssc_pixel_shape_fl snd]. fold psf.
  assert (E : ((3 # 2) / ((3 # 2) / rs) == rs)%Q) by (field; lra).
  assert (N : near (3 # 10 ^ 15) 1 (fdiv fl (3 # 2) s3) rs).
  { eapply near_ext; [|reflexivity|exact E]. eapply near_div_b with (lo := (173 # 100)%Q) (hi := (174 # 100)%Q) (ep := (2 # 10 ^ 15)%Q);
      [exact F|apply near_exact; apply Qle_refl|reflexivity|exact S1|exact S2|exact S3|num|num|num|num|num]. }
  assert (K : near (2 # 10 ^ 18) 1 (fmul fl (fdiv fl (3 # 2) s3) psf) (rs * ps)).
  { eapply near_mul; [exact F|exact N|exact near_dpsf|num|num|num|num]. }
  exact (proj1 K).
Qed.

Lemma in_pixels_x : forall x y, near (15 # 10 ^ 14) 40 x y ->
  (Qabs (fdiv fl x (fst (dssc_pixel_shape_fl fl s3)) - y / fst (pixel_shape rs DSSC)) <= E8)%Q.
Proof.
  intros x y N. change (fst (dssc_pixel_shape_fl fl s3)) with (fst (pixel_shape_fl fl DSSC)).
  assert (X : near E8 (10 ^ 9) (fdiv fl x (fst (pixel_shape_fl fl DSSC))) (y / fst (pixel_shape rs DSSC))).
  { eapply near_div with (ep := (5 # 10 ^ 19)%Q); [exact F|exact N|reflexivity|apply (near_px F)| | | | |]; num. }
  exact (proj1 X).
Qed.

Lemma in_pixels_y : forall x y, near (15 # 10 ^ 14) 40 x y ->
  (Qabs (fdiv fl x (snd (dssc_pixel_shape_fl fl s3)) - y / snd (pixel_shape rs DSSC)) <= E8)%Q.
Proof.
  intros x y N. destruct (roots R) as (R1 & R2 & _).
  assert (X : near E8 (10 ^ 9) (fdiv fl x (snd (dssc_pixel_shape_fl fl s3))) (y / snd (pixel_shape rs DSSC))).
  { eapply near_div_b with (lo := (204 # 1000000)%Q) (hi := (205 # 1000000)%Q) (ep := (2 # 10 ^ 18)%Q);
      [exact F|exact N|reflexivity| | |exact near_py|num|num|num|num|num].
    - cbn [pixel_shape snd pixel_size]. lra.
    - cbn [pixel_shape snd pixel_size]. lra. }
  exact (proj1 X).
Qed.

Lemma near_ss : forall z, Z.abs z <= 1 ->
  near (2 # 10 ^ 18) (3 # 10000) (fdiv fl (fmul fl (fmul fl (inject_Z z) psf) (3 # 2)) s3) (ps * rs * inject_Z z).
Proof.
  intros z Hz. destruct (roots R) as (R1 & R2 & S1 & S2 & S3).
  eapply near_ext with (y := (inject_Z z * ps * (3 # 2) / ((3 # 2) / rs))%Q); [|reflexivity|field; lra].
  eapply near_div_b with (lo := (173 # 100)%Q) (hi := (174 # 100)%Q) (ep := (2 # 10 ^ 15)%Q) (e1 := (6 # 10 ^ 19)%Q) (M1 := (45 # 100000)%Q);
    [exact F| |reflexivity|exact S1|exact S2|exact S3|num|num|num|num|num].
  assert (H : (Qabs (3 # 2) <= 3 # 2)%Q) by apply Qle_refl.
  eapply near_mul with (e1 := (3 # 10 ^ 19)%Q) (M1 := (3 # 10000)%Q); [exact F| |exact (near_exact H)|num|num|num|num].
  eapply near_mul; [exact F|exact (near_int Hz)|exact near_dpsf|num|num|num|num].
Qed.

Lemma near_fs : forall z, Z.abs z <= 1 -> near (2 # 10 ^ 18) (3 # 10000) (fmul fl (inject_Z z) psf) (ps * inject_Z z).
Proof. intros z Hz. eapply (near_mul_comm F); [exact (near_int Hz)|exact near_dpsf|num|num|num|num]. Qed.

Lemma dssc_h5_close : forall f quad_pos w g,
  (1 # 10000 <= w)%Q -> (w <= 1 # 100)%Q -> (forall q, In q quad_pos -> small_pair q) ->
  (forall q m p, h5_module f q m = Some p -> small_pair p) -> (forall q m t p, h5_tile f q m t = Some p -> small_pair p) ->
  dssc_from_h5 rs f quad_pos w = Ok g ->
  exists g', dssc_from_h5_fl fl s3 f quad_pos (fl w) = Ok g' /\
    Forall2 (Forall2 (close fl (dssc_pixel_shape_fl fl s3) (pixel_shape rs DSSC))) g' g.
Proof.
  intros f quad_pos w g W1 W2 HQ HM HT E. unfold dssc_from_h5 in E. unfold dssc_from_h5_fl.
  destruct (negb (Nat.eqb (List.length quad_pos) 4)); [discriminate|]. cbv zeta in E |- *.
  eapply mapM_related; [exact E|]. clear E. intros [q m] md Hp E. cbv beta iota zeta in E |- *. fold ps psf in E |- *.
  destruct (py_index quad_pos (q - 1)) as [qc|] eqn:E1; [|discriminate]. cbn [bind] in *.
  destruct (h5_module f q m) as [mo|] eqn:E2; [|discriminate]. cbn [get_key bind] in *.
  destruct (py_index [-1; -1; 1; 1] (q - 1)) as [xo|] eqn:E4; [|discriminate]. cbn [bind] in *.
  destruct (py_index [1; 1; -1; -1] (q - 1)) as [yo|] eqn:E5; [|discriminate]. cbn [bind] in *.
  eapply mapM_related; [exact E|]. clear E. intros t tl Ht E. cbv beta zeta in E |- *.
  destruct (h5_tile f q m t) as [to|] eqn:E3; [|discriminate]. cbn [get_key bind] in *.
  apply Ok_eq in E. subst tl. eexists. split; [reflexivity|].
  apply py_index_in in E1. destruct (HQ qc E1) as [Q1 Q2]. destruct (HM _ _ _ E2) as [M1 M2]. destruct (HT _ _ _ _ E3) as [T1 T2].
  apply py_index_in in E4. assert (X : Z.abs xo <= 1) by (destruct E4 as [<-|[<-|[<-|[<-|[]]]]]; lia). clear E4.
  apply py_index_in in E5. assert (Y : Z.abs yo <= 1) by (destruct E5 as [<-|[<-|[<-|[<-|[]]]]]; lia). clear E5.
  pose proof (near_place F W1 W2 Q1 M1 T1) as NX. pose proof (near_place F W1 W2 Q2 M2 T2) as NY.
  assert (ST : forall c x y, 0 <= c <= 256 -> near (2 # 10 ^ 18) (3 # 10000) x y -> near (1 # 10 ^ 15) (1 # 10) (fmul fl x (inject_Z c)) (inject_Z c * y)).
  { intros c x y Hc N. eapply (near_mul_comm F); [exact N|apply (near_int (z := c) (b := 256)); lia|num|num|num|num]. }
  assert (CO : forall x y x' y', near (5 # 10 ^ 14) 30 x y -> near (1 # 10 ^ 15) (1 # 10) x' y' -> near (15 # 10 ^ 14) 40 (fsub fl x x') (y - y')).
  { intros x y x' y' N N'. eapply near_sub; [exact F|exact N|exact N'|num|num|num|num]. }
  assert (W : forall x y, near (2 # 10 ^ 18) (3 # 10000) x y -> near (15 # 10 ^ 14) 40 x y).
  { intros x y N. eapply near_weaken; [exact N|num|num]. }
  assert (Z0 : Z.abs 0 <= 1) by lia.
  unfold close. destruct (xo =? -1); cbn [t_corner t_ss t_fs t_ss_px t_fs_px vx vy vz fvmul fvdiv vmul fvadd vadd fvsub vsub].
  - split; [reflexivity|]. split; [reflexivity|].
    split; [apply in_pixels_x; apply CO; [exact NX|apply ST; [cbn; lia|exact (near_fs X)]]|].
    split; [apply in_pixels_y; apply CO; [exact NY|apply ST; [cbn; lia|exact (near_fs Z0)]]|].
    split; [apply in_pixels_x; apply W; exact (near_ss Z0)|]. split; [apply in_pixels_y; apply W; exact (near_ss Y)|].
    split; [apply in_pixels_x; apply W; exact (near_fs X)|apply in_pixels_y; apply W; exact (near_fs Z0)].
  - split; [reflexivity|]. split; [reflexivity|].
    split; [apply in_pixels_x; apply CO; [exact NX|apply ST; [cbn; lia|exact (near_ss Z0)]]|].
    split; [apply in_pixels_y; apply CO; [exact NY|apply ST; [cbn; lia|exact (near_ss Y)]]|].
    split; [apply in_pixels_x; apply W; exact (near_ss Z0)|]. split; [apply in_pixels_y; apply W; exact (near_ss Y)|].
    split; [apply in_pixels_x; apply W; exact (near_fs X)|apply in_pixels_y; apply W; exact (near_fs Z0)].
Qed.
End Dssc.
