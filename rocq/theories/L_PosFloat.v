(** Lemmas on pixel positions with rounded arithmetic. *)
From Coq Require Import QArith Qround Qabs Lqa.
From Verif Require Import Base L_Base M_Geom M_GeomFloat S_Geom S_GeomFloat L_Geom1 L_Geom2 L_Geom3 L_GeomFloat L_GeomFloat2 L_GeomFloat3 L_GeomFloat5 L_CrystText3
  M_PosFloat S_PosFloat.
Set Implicit Arguments.
Unset Strict Implicit.
Local Open Scope Z_scope.
Local Open Scope list_scope.

Definition vnear (e M : Q) (v w : vec) : Prop := near e M (vx v) (vx w) /\ near e M (vy v) (vy w) /\ near e M (vz v) (vz w).
Lemma vnear_close : forall e M v w, vnear e M v w -> vclose e v w.
Proof. intros e M v w ([A _] & [B _] & [C _]). repeat split; assumption. Qed.

Lemma foldM_r : forall A S (R : S -> S -> Prop) (f g : S -> A -> res S) l s s', (forall a x y, In a l -> R x y -> rrel R (f x a) (g y a)) ->
  R s s' -> rrel R (foldM f s l) (foldM g s' l).
Proof.
  intros A S R f g l. induction l as [|a l IH]; intros s s' H Hs; [exact Hs|]. cbn [foldM]. eapply bind_rel; [apply H; [left; reflexivity|exact Hs]|].
  intros x y Hxy. apply IH; [|exact Hxy]. intros b u v Hb. apply H. right. exact Hb.
Qed.
Lemma fold_r : forall A S (R : S -> S -> Prop) (f g : S -> A -> S) l s s', (forall a x y, In a l -> R x y -> R (f x a) (g y a)) ->
  R s s' -> R (fold_left f l s) (fold_left g l s').
Proof.
  intros A S R f g l. induction l as [|a l IH]; intros s s' H Hs; [exact Hs|]. cbn [fold_left]. apply IH; [|apply H; [left; reflexivity|exact Hs]].
  intros b u v Hb. apply H. right. exact Hb.
Qed.

Lemma zenum_In : forall A (l : list A) i x, In (i, x) (zenum l) -> 0 <= i /\ In x l.
Proof.
  intros A l i x H. split; [|exact (in_combine_r _ _ _ _ H)]. apply in_combine_l in H. apply in_map_iff in H as (n & <- & _). lia.
Qed.

Lemma small_in : forall g md tl, geometry_small g -> In md g -> In tl md -> tile_small tl.
Proof.
  intros g md tl H Hm Ht. apply In_nth_error in Hm as [i Hi]. apply In_nth_error in Ht as [j Hj]. apply (H (Z.of_nat i) (Z.of_nat j)).
  unfold tile_at.
  rewrite !Nat2Z.id, Hi. replace (0 <=? Z.of_nat i) with true by (symmetry; apply Z.leb_le; lia).
  replace (0 <=? Z.of_nat j) with true by (symmetry; apply Z.leb_le; lia). exact Hj.
Qed.

Lemma inj_small : forall z (n : Z), Z.abs z <= n -> (Qabs (inject_Z z) <= inject_Z n)%Q.
Proof. intros z n H. change (Qabs (inject_Z z)) with (inject_Z (Z.abs z)). rewrite <- Zle_Qle. exact H. Qed.

Section Fl.
Variable fl : Q -> Q.
Hypothesis F : float64 fl.

Lemma coord_near : forall p' p a b s' s f' f e M e2 M2, near e M p' p -> (Qabs a <= 1 # 1000)%Q -> (Qabs b <= 1 # 1000)%Q ->
  near (1 # 10 ^ 12) 520 s' s -> near (1 # 10 ^ 12) 520 f' f -> (e <= 1)%Q -> (M <= 1000)%Q ->
  (e + U * (e + M + 2) + (3 # 10 ^ 15) <= e2 - U * (e + M + 3))%Q -> (M + (52 # 100) + (52 # 100) <= M2)%Q ->
  near e2 M2 (fadd fl (fadd fl p' (fmul fl a s')) (fmul fl b f')) (p + s * a + f * b).
Proof.
  intros p' p a b s' s f' f e M e2 M2 N A B S1 S2 He HM H1 H2.
  destruct (near_nonneg N) as [E0 M0].
  assert (X : near (12 # 10 ^ 16) (52 # 100) (fmul fl a s') (s * a)).
  { eapply near_ext; [eapply near_mul; [exact F|exact (near_exact A)|exact S1|num|num|num|num]|reflexivity|apply Qmult_comm]. }
  assert (Y : near (12 # 10 ^ 16) (52 # 100) (fmul fl b f') (f * b)).
  { eapply near_ext; [eapply near_mul; [exact F|exact (near_exact B)|exact S2|num|num|num|num]|reflexivity|apply Qmult_comm]. }
  assert (K : (1000000 <= 10 ^ 29)%Q) by num.
  assert (Z1 : near (e + (12 # 10 ^ 16) + U * (e + (12 # 10 ^ 16) + (M + (52 # 100))) + T) (M + (52 # 100)) (fadd fl p' (fmul fl a s')) (p + s * a)).
  { assert (C : (12 # 10 ^ 16 <= 1)%Q) by num. eapply near_add; [exact F|exact N|exact X|lra|lra|apply Qle_refl|apply Qle_refl]. }
  change U with (2 # 10000000000000000)%Q in H1, Z1. change T with (1 # 1000000000000000000000000000000)%Q in Z1.
  change (10 ^ 16)%positive with 10000000000000000%positive in *. change (10 ^ 15)%positive with 1000000000000000%positive in *.
  eapply near_add; [exact F|exact Z1|exact Y|lra|lra| |lra].
  change U with (2 # 10000000000000000)%Q. change T with (1 # 1000000000000000000000000000000)%Q. lra.
Qed.

Lemma step_near : forall p' p a b s' s f' f e M e2 M2, vnear e M p' p -> vsmall (1 # 1000) a -> vsmall (1 # 1000) b ->
  near (1 # 10 ^ 12) 520 s' s -> near (1 # 10 ^ 12) 520 f' f -> (e <= 1)%Q -> (M <= 1000)%Q ->
  (e + U * (e + M + 2) + (3 # 10 ^ 15) <= e2 - U * (e + M + 3))%Q -> (M + (52 # 100) + (52 # 100) <= M2)%Q ->
  vnear e2 M2 (step_fl fl p' a b s' f') (vadd (vadd p (vmul s a)) (vmul f b)).
Proof.
  intros p' p a b s' s f' f e M e2 M2 (N1 & N2 & N3) (A1 & A2 & A3) (B1 & B2 & B3) S1 S2 He HM H1 H2.
  split; [|split]; cbn [step_fl fvadd fvmul vadd vmul vx vy vz]; eapply coord_near; eassumption.
Qed.

Lemma tile_point_near : forall t s' s f' f, tile_small t -> near (1 # 10 ^ 12) 520 s' s -> near (1 # 10 ^ 12) 520 f' f ->
  vnear (5 # 10 ^ 15) (21 # 10) (tile_point_fl fl t s' f') (tile_point t s f).
Proof.
  intros t s' s f' f ((C1 & C2 & C3) & A & B) S1 S2. unfold tile_point_fl, tile_point. eapply step_near with (e := 0%Q) (M := 1%Q); try eassumption; try num.
  repeat split; try assumption; apply (near_exact (M := 1)); assumption.
Qed.

Lemma adjust_near : forall d c s f, 0 <= s < 256 -> 0 <= f < 512 ->
  near (1 # 10 ^ 12) 520 (fst (adjust_pixel_fl fl d c s f)) (fst (adjust_pixel d c s f)) /\
  near (1 # 10 ^ 12) 520 (snd (adjust_pixel_fl fl d c s f)) (snd (adjust_pixel d c s f)).
Proof.
  intros d c s f Hs Hf.
  assert (S0 : near 0 512 (inject_Z s) (inject_Z s)) by (apply near_exact, inj_small; lia).
  assert (F0 : near 0 512 (inject_Z f) (inject_Z f)) by (apply near_exact, inj_small; lia).
  assert (H0 : near 0 1 (1 # 2) (1 # 2)) by (apply near_exact; num).
  assert (T0 : near (1 # 10 ^ 15) 1 (fl (2 # 3)) (2 # 3)).
  { eapply near_weaken; [apply (near_fl F (near_exact (M := 1) (y := 2 # 3) ltac:(num))); num|num|num]. }
  assert (SW : near (1 # 10 ^ 12) 520 (inject_Z s) (inject_Z s)) by (eapply near_weaken; [exact S0|num|num]).
  assert (FW : near (1 # 10 ^ 12) 520 (inject_Z f) (inject_Z f)) by (eapply near_weaken; [exact F0|num|num]).
  assert (SH : near (1 # 10 ^ 12) 520 (fadd fl (inject_Z s) (1 # 2)) (inject_Z s + (1 # 2))) by (eapply near_add; [exact F|exact S0|exact H0|num|num|num|num]).
  assert (FH : near (1 # 10 ^ 12) 520 (fadd fl (inject_Z f) (1 # 2)) (inject_Z f + (1 # 2))) by (eapply near_add; [exact F|exact F0|exact H0|num|num|num|num]).
  assert (ST : near (1 # 10 ^ 12) 520 (fadd fl (inject_Z s) (fl (2 # 3))) (inject_Z s + (2 # 3))) by (eapply near_add; [exact F|exact S0|exact T0|num|num|num|num]).
  assert (FM : near (2 # 10 ^ 13) 513 (fsub fl (inject_Z f) (1 # 2)) (inject_Z f - (1 # 2))) by (eapply near_sub; [exact F|exact F0|exact H0|num|num|num|num]).
  assert (FMW : near (1 # 10 ^ 12) 520 (fsub fl (inject_Z f) (1 # 2)) (inject_Z f - (1 # 2))) by (eapply near_weaken; [exact FM|num|num]).
  assert (FMH : near (1 # 10 ^ 12) 520 (fadd fl (fsub fl (inject_Z f) (1 # 2)) (1 # 2)) (inject_Z f - (1 # 2) + (1 # 2))) by (eapply near_add; [exact F|exact FM|exact H0|num|num|num|num]).
  destruct d, c; cbn [adjust_pixel adjust_pixel_fl fst snd]; cbv zeta; try (destruct (s mod 2 =? 1)); cbn [fst snd]; split; assumption.
Qed.

Definition prel (a b : positions) : Prop := forall m s f, vnear (5 # 10 ^ 15) (21 # 10) (a m s f) (b m s f).

Lemma slice_size : forall d t, let '(a, b) := tile_slice d t in snd a - fst a <= 256 /\ snd b - fst b <= 512.
Proof. intros [] t; cbn [tile_slice]; unfold frag_ss, frag_fs; cbn [fst snd]; try (destruct (t <? 8)); cbn [fst snd]; lia. Qed.

Lemma write_r : forall d c m x y ti, tile_small (snd ti) -> prel x y -> rrel prel (write_tile_fl fl d c m x ti) (write_tile d c m y ti).
Proof.
  intros d c m x y [t tl] S H. cbn [snd] in S. unfold write_tile_fl, write_tile. destruct (negb (m <? n_modules d)); [reflexivity|].
  destruct (negb (t <? n_tiles d)); [reflexivity|]. pose proof (slice_size d t) as Z. destruct (tile_slice d t) as [a b]. cbn [rrel]. intros m' s f.
  destruct ((m' =? m) && in_slice a s && in_slice b f) eqn:E; [|apply H]. apply andb_true_iff in E as [E E3]. apply andb_true_iff in E as [_ E2].
  unfold in_slice in E2, E3. apply andb_true_iff in E2 as [A1 A2], E3 as [B1 B2]. apply Z.leb_le in A1, B1. apply Z.ltb_lt in A2, B2.
  destruct (@adjust_near d c (s - fst a) (f - fst b)) as [N1 N2]; [lia|lia|].
  destruct (adjust_pixel_fl fl d c (s - fst a) (f - fst b)) as [s1 f1], (adjust_pixel d c (s - fst a) (f - fst b)) as [s2 f2]. cbn [fst snd] in *. now apply tile_point_near.
Qed.

Lemma positions_r : forall d g c, geometry_small g -> rrel prel (get_pixel_positions_fl fl d g c) (get_pixel_positions d g c).
Proof.
  intros d g c S. unfold get_pixel_positions_fl, get_pixel_positions. apply foldM_r.
  - intros [m md] x y Hm Hxy. cbn [fst snd]. apply zenum_In in Hm as [_ Hm]. apply foldM_r; [|exact Hxy]. intros [t tl] u v Ht Huv. apply zenum_In in Ht as [_ Ht].
    apply write_r; [exact (small_in S Hm Ht)|exact Huv].
  - intros m s f. repeat split; num.
Qed.

Lemma rem_near : forall a n, 0 < n -> n <= 256 -> near (1 # 10 ^ 12) 520 (snd (divmodq_fl fl a n)) (snd (divmodq a n)) /\ fst (divmodq_fl fl a n) = fst (divmodq a n).
Proof.
  intros a n H1 H2. split; [|reflexivity]. unfold divmodq_fl, divmodq. cbn [snd]. set (k := Qfloor (a / inject_Z n)).
  assert (P : (0 < inject_Z n)%Q) by (rewrite <- (Zlt_Qlt 0); exact H1).
  assert (Q1 : (a == a / inject_Z n * inject_Z n)%Q) by (field; intros E; rewrite E in P; discriminate).
  pose proof (Qfloor_le (a / inject_Z n)) as L1. pose proof (Qlt_floor (a / inject_Z n)) as L2. fold k in L1, L2. rewrite inject_Z_plus in L2. change (inject_Z 1) with 1%Q in L2.
  assert (B : (inject_Z n <= 256)%Q) by (change 256%Q with (inject_Z 256); rewrite <- Zle_Qle; exact H2).
  assert (R : (Qabs (a - inject_Z n * inject_Z k) <= 256)%Q).
  { set (x := (a / inject_Z n)%Q) in *. set (w := inject_Z n) in *. set (z := inject_Z k) in *. apply Qabs_Qle_condition. split; rewrite Q1; nra. }
  eapply near_weaken; [apply (near_fl F (near_exact R)); num|num|num].
Qed.

Definition crel (a b : Z * Q * Q) : Prop :=
  fst (fst a) = fst (fst b) /\ near (1 # 10 ^ 12) 520 (snd (fst a)) (snd (fst b)) /\ near (1 # 10 ^ 12) 520 (snd a) (snd b).

Lemma coords_r : forall d ss fs, (Qabs fs <= 520)%Q -> rrel crel (module_coords_to_tile_fl fl d ss fs) (module_coords_to_tile d ss fs).
Proof.
  intros d ss fs H. destruct d; cbn [module_coords_to_tile module_coords_to_tile_fl].
  - destruct (@rem_near ss 64 ltac:(lia) ltac:(lia)) as [A B]. change (frag_ss AGIPD) with 64. destruct (divmodq_fl fl ss 64) as [t x], (divmodq ss 64) as [t' x'].
    cbn [fst snd] in *. subst t'. split; [reflexivity|]. split; [exact A|]. cbn [snd]. eapply near_weaken; [exact (near_exact H)|num|num].
  - destruct (@rem_near ss 32 ltac:(lia) ltac:(lia)) as [A B]. destruct (@rem_near fs 128 ltac:(lia) ltac:(lia)) as [C D]. change (frag_ss LPD) with 32. change (frag_fs LPD) with 128.
    destruct (divmodq_fl fl ss 32) as [t x], (divmodq ss 32) as [t' x'], (divmodq_fl fl fs 128) as [u y], (divmodq fs 128) as [u' y'].
    cbn [fst snd] in *. subst. split; [reflexivity|]. split; assumption.
  - reflexivity.
Qed.

Lemma data_coords_r : forall d g m ss fs, geometry_small g -> (Qabs fs <= 520)%Q ->
  rrel (vnear (5 # 10 ^ 15) (21 # 10)) (data_coords_to_position_fl fl d g m ss fs) (data_coords_to_position d g m ss fs).
Proof.
  intros d g m ss fs S H. unfold data_coords_to_position_fl, data_coords_to_position. destruct (List.concat g) as [|t0 ts] eqn:E; [reflexivity|].
  eapply bind_rel; [apply (coords_r d ss H)|]. intros [[t x] y] [[t' x'] y'] (A & B & C). cbn [fst snd] in A, B, C. subst t'.
  destruct (py_index (t0 :: ts) (m * n_tiles d + t)) as [tl|] eqn:Ei; [|reflexivity]. cbn [bind rrel]. apply tile_point_near; try assumption.
  apply L_GeomFloat2.py_index_in in Ei. rewrite <- E in Ei. apply in_concat in Ei as (md & Hm & Ht). exact (small_in S Hm Ht).
Qed.

(** ** The distortion array *)
Lemma corners_near : forall d k, match nth_error (pixel_corners_fl fl d) k, nth_error (pixel_corners d) k with
  | Some a, Some b => near (1 # 10 ^ 12) 520 (fst a) (fst b) /\ near (1 # 10 ^ 12) 520 (snd a) (snd b)
  | None, None => True
  | _, _ => False
  end.
Proof.
  assert (X : forall q, (Qabs q <= 1)%Q -> near (1 # 10 ^ 12) 520 (four_thirds fl q) (q * 4 / 3)).
  { intros q Hq. unfold four_thirds.
    assert (N : near (1 # 10 ^ 14) 4 (fmul fl q 4) (q * 4)) by (eapply near_mul; [exact F|exact (near_exact Hq)|apply (near_exact (M := 4)); num|num|num|num|num]).
    eapply near_div with (ep := 0%Q); [exact F|exact N|reflexivity|num|num|num|num|num|num]. }
  intros d k. destruct d; cbn [pixel_corners pixel_corners_fl];
    do 6 (destruct k as [|k]; cbn [nth_error fst snd]; [first [exact I | split; [first [apply X; num|split; num]|split; num]]|]); destruct k; exact I.
Qed.

Section F32.
Variable f32 : Q -> Q.
Hypothesis G : float32 f32.

Lemma f32_near : forall e M x y, near e M x y -> (e + M <= 1000000)%Q -> near (e + (6 # 10 ^ 8) * (e + M) + (1 # 10 ^ 30)) M (f32 x) y.
Proof.
  intros e M x y [A B] H. split; [|exact B]. destruct (near_nonneg (conj A B)) as [E0 M0].
  assert (X : (Qabs x <= e + M)%Q).
  { apply Qabs_Qle_condition in A, B. apply Qabs_Qle_condition. lra. }
  assert (K : (1000000 <= inject_Z (2 ^ 100))%Q) by num.
  pose proof (proj1 G x ltac:(lra)) as E.
  assert (D : (Qabs (f32 x - y) <= Qabs (f32 x - x) + Qabs (x - y))%Q).
  { eapply Qle_trans; [|apply Qabs_triangle]. setoid_replace (f32 x - x + (x - y))%Q with (f32 x - y)%Q by ring. apply Qle_refl. }
  assert (C1 : (1 # 2 ^ 24 <= 6 # 10 ^ 8)%Q) by num. assert (C2 : (1 # 2 ^ 150 <= 1 # 10 ^ 30)%Q) by num.
  pose proof (Qabs_nonneg x) as P. set (u := 1 # 2 ^ 24) in *. set (w := 6 # 10 ^ 8) in *. set (t := 1 # 2 ^ 150) in *. set (t2 := 1 # 10 ^ 30) in *.
  assert (W : (0 <= w)%Q) by (unfold w; num). clearbody u w t t2. nra.
Qed.

Definition tnear (e M : Q) (a b : Q * Q * Q) : Prop := near e M (d_z a) (d_z b) /\ near e M (d_y a) (d_y b) /\ near e M (d_x a) (d_x b).
Definition drel2 (a b : distortion) : Prop := forall r c k, tnear (2 # 10 ^ 7) (32 # 10) (a r c k) (b r c k).

Lemma distort_r : forall d p' p m x y ti, tile_small (snd ti) -> prel p' p -> drel2 x y -> drel2 (distort_tile_fl fl f32 d p' m x ti) (distort_tile d p m y ti).
Proof.
  intros d p' p m x y [t tl] (S1 & S2 & S3) P H. cbn [snd] in *. unfold distort_tile_fl, distort_tile. destruct (distortion_slice d m t) as [a b]. intros r c k.
  destruct (in_slice a r && in_slice b c); [|apply H]. cbv zeta. pose proof (corners_near d k) as N.
  destruct (nth_error (pixel_corners_fl fl d) k) as [[s' f']|], (nth_error (pixel_corners d) k) as [[s f]|]; try contradiction; [|apply H].
  destruct N as [N1 N2]. cbn [fst snd] in N1, N2.
  assert (V : vnear (1 # 10 ^ 14) (315 # 100) (step_fl fl (p' (r / mod_ss d) (r mod mod_ss d) c) (t_ss tl) (t_fs tl) s' f')
     (vadd (vadd (p (r / mod_ss d) (r mod mod_ss d) c) (vmul s (t_ss tl))) (vmul f (t_fs tl)))).
  { eapply step_near; [apply P|exact S2|exact S3|exact N1|exact N2|num|num|num|num]. }
  destruct V as (V1 & V2 & V3). split; [|split]; unfold d_z, d_y, d_x; cbn [fst snd]; (eapply near_weaken; [apply f32_near; [eassumption|num]|num|num]).
Qed.

Lemma min_close : forall l l' z z' (e : Q), (0 <= e)%Q -> (forall x, In x (z :: l) -> exists x', In x' (z' :: l') /\ (x' <= x + e)%Q) ->
  (qmin_list l' z' <= qmin_list l z + e)%Q.
Proof.
  intros l l' z z' e E H. destruct (qmin_list_spec l z) as [_ I]. destruct (H _ I) as (x' & I' & L). destruct (qmin_list_spec l' z') as [K _]. specialize (K _ I'). lra.
Qed.

Lemma entries_close : forall d a' a (p : Q * Q * Q -> Q) (e : Q), (forall r c k, Qabs (p (a' r c k) - p (a r c k)) <= e)%Q ->
  forall x, In x (map p (distortion_entries d a)) -> exists x', In x' (map p (distortion_entries d a')) /\ (Qabs (x' - x) <= e)%Q.
Proof.
  intros d a' a p e H x Hx. apply in_map_iff in Hx as (v & <- & Hv). apply distortion_entries_In in Hv as (r & c & n & Hn & ->).
  exists (p (a' r c n)). split; [|apply H]. apply in_map, distortion_entries_In. eauto.
Qed.

Lemma min_near : forall d a' a (p : Q * Q * Q -> Q) e M v' vs' v vs, (forall r c k, near e M (p (a' r c k)) (p (a r c k))) ->
  distortion_entries d a' = v' :: vs' -> distortion_entries d a = v :: vs ->
  near e M (qmin_list (map p vs') (p v')) (qmin_list (map p vs) (p v)).
Proof.
  intros d a' a p e M v' vs' v vs H E' E. destruct (near_nonneg (H 0 0 0%nat)) as [E0 _].
  pose proof (@entries_close d a' a p e (fun r c k => proj1 (H r c k))) as C1.
  pose proof (@entries_close d a a' p e) as C2. rewrite E, E' in C1, C2. cbn [map] in C1, C2. split.
  - apply Qabs_Qle_condition. split.
    + assert (L : (qmin_list (map p vs) (p v) <= qmin_list (map p vs') (p v') + e)%Q); [|lra]. apply min_close; [exact E0|]. intros x Hx.
      destruct (C2 ltac:(intros r c k; rewrite Qabs_Qminus; exact (proj1 (H r c k))) x Hx) as (x' & I & L).
      exists x'. split; [exact I|]. apply Qabs_Qle_condition in L. lra.
    + assert (L : (qmin_list (map p vs') (p v') <= qmin_list (map p vs) (p v) + e)%Q); [|lra]. apply min_close; [exact E0|]. intros x Hx.
      destruct (C1 x Hx) as (x' & I & L). exists x'. split; [exact I|]. apply Qabs_Qle_condition in L. lra.
  - destruct (qmin_list_spec (map p vs) (p v)) as [_ I]. change (p v :: map p vs) with (map p (v :: vs)) in I. rewrite <- E in I.
    apply in_map_iff in I as (w & <- & Hw). apply distortion_entries_In in Hw as (r & c & n & _ & ->). apply H.
Qed.
Lemma sub_near : forall x' x y' y, near (2 # 10 ^ 7) (32 # 10) x' x -> near (2 # 10 ^ 7) (32 # 10) y' y -> (Qabs (fsub f32 x' y' - (x - y)) <= 1 # 10 ^ 6)%Q.
Proof.
  intros x' x y' y [A1 A2] [B1 B2].
  assert (N : near (4 # 10 ^ 7) (64 # 10) (x' - y') (x - y)).
  { change (10 ^ 7)%positive with 10000000%positive in *. apply Qabs_Qle_condition in A1, A2, B1, B2. split; apply Qabs_Qle_condition; lra. }
  unfold fsub. eapply Qle_trans; [exact (proj1 (f32_near N ltac:(num)))|num].
Qed.

Lemma raw_r : forall d g p' p, geometry_small g -> prel p' p ->
  drel2 (fold_left (fun out mi => fold_left (distort_tile_fl fl f32 d p' (fst mi)) (zenum (snd mi)) out) (zenum g) (fun _ _ _ => (0, 0, 0)%Q))
        (fold_left (fun out mi => fold_left (distort_tile d p (fst mi)) (zenum (snd mi)) out) (zenum g) (fun _ _ _ => (0, 0, 0)%Q)).
Proof.
  intros d g p' p S P. apply fold_r.
  - intros [m md] x y Hm Hxy. cbn [fst snd]. apply zenum_In in Hm as [_ Hm]. apply fold_r; [|exact Hxy]. intros [t tl] u v Ht Huv. apply zenum_In in Ht as [_ Ht].
    apply distort_r; [exact (small_in S Hm Ht)|exact P|exact Huv].
  - intros r c k. repeat split; num.
Qed.

Lemma entries_some : forall d a, exists v vs, distortion_entries d a = v :: vs.
Proof.
  intros d a. destruct (distortion_entries d a) as [|v vs] eqn:E; [|eauto].
  exfalso. assert (I : In (a 0 0 0%nat) (distortion_entries d a)).
  { apply distortion_entries_In. exists 0, 0, 0%nat. split; [|reflexivity]. unfold in_array. destruct d; cbn; lia. }
  rewrite E in I. destruct I.
Qed.

Lemma distortion_r : forall d g (allow : bool), geometry_small g ->
  rrel (fun a' a => (forall r c k, tclose (if allow then 2 # 10 ^ 7 else 1 # 10 ^ 6) (a' r c k) (a r c k)) /\
    (allow = false -> (forall r c n, in_array d r c n -> (0 <= d_y (a' r c n) /\ 0 <= d_x (a' r c n))%Q) /\
      (exists r c n, in_array d r c n /\ (d_y (a' r c n) == 0)%Q) /\ (exists r c n, in_array d r c n /\ (d_x (a' r c n) == 0)%Q)))
    (to_distortion_array_fl fl f32 d g allow) (to_distortion_array d g allow).
Proof.
  intros d g allow S. unfold to_distortion_array_fl, to_distortion_array. eapply bind_rel; [apply (positions_r d false S)|]. intros p' p P. cbv zeta.
  pose proof (raw_r d S P) as R.
  set (a' := fold_left _ (zenum g) _) in R at 1. fold a'.
  set (a := fold_left (fun out mi => fold_left (distort_tile d p (fst mi)) (zenum (snd mi)) out) (zenum g) _) in *. clearbody a' a.
  destruct allow.
  - cbn [rrel]. split; [|discriminate]. intros r c k. destruct (R r c k) as (A & B & C). repeat split; [exact (proj1 A)|exact (proj1 B)|exact (proj1 C)].
  - destruct (entries_some d a') as (v' & vs' & E'). destruct (entries_some d a) as (v & vs & E). rewrite E, E'. cbn [rrel].
    pose proof (min_near (p := d_y) (fun r c k => proj1 (proj2 (R r c k))) E' E) as MY.
    pose proof (min_near (p := d_x) (fun r c k => proj2 (proj2 (R r c k))) E' E) as MX.
    destruct (qmin_list_spec (map d_y vs') (d_y v')) as [Y1 Y2]. destruct (qmin_list_spec (map d_x vs') (d_x v')) as [X1 X2].
    set (my' := qmin_list (map d_y vs') (d_y v')) in *. set (mx' := qmin_list (map d_x vs') (d_x v')) in *.
    change (d_y v' :: map d_y vs') with (map d_y (v' :: vs')) in Y1, Y2. change (d_x v' :: map d_x vs') with (map d_x (v' :: vs')) in X1, X2. rewrite <- E' in *.
    split; [|intros _; split; [|split]].
    + intros r c k. destruct (R r c k) as (A & B & C). unfold tclose, d_z at 1 2, d_y at 1 3, d_x at 1 3. cbn [fst snd].
      split; [|split].
      * eapply Qle_trans; [exact (proj1 A)|num].
      * apply sub_near; assumption.
      * apply sub_near; assumption.
    + intros r c n Hn. assert (I : In (a' r c n) (distortion_entries d a')) by (apply distortion_entries_In; eauto).
      specialize (Y1 _ (in_map d_y _ _ I)). specialize (X1 _ (in_map d_x _ _ I)). unfold d_y at 1, d_x at 2. cbn [fst snd]. unfold fsub.
      split; apply (proj1 (proj2 G)); [lra|unfold d_x in *; cbn [snd]; lra].
    + apply in_map_iff in Y2 as (w & Ew & I). apply distortion_entries_In in I as (r & c & n & Hn & ->). exists r, c, n. split; [exact Hn|].
      unfold d_y at 1. cbn [fst snd]. unfold fsub. apply (proj2 (proj2 G)). rewrite Ew. ring.
    + apply in_map_iff in X2 as (w & Ew & I). apply distortion_entries_In in I as (r & c & n & Hn & ->). exists r, c, n. split; [exact Hn|].
      unfold d_x at 1. cbn [fst snd]. unfold fsub. apply (proj2 (proj2 G)). rewrite Ew. ring.
Qed.
End F32.
End Fl.

(** ** The error of binary32 *)
Lemma around_nonneg : forall q, (0 <= q)%Q -> 0 <= np_around q.
Proof.
  intros q H. unfold np_around. apply Qfloor_resp_le in H. change (Qfloor 0) with 0 in H. destruct (q - inject_Z (Qfloor q) ?= 1 # 2)%Q; [destruct (Z.even (Qfloor q))| |]; lia.
Qed.

Lemma binary32_float32 : float32 binary32.
Proof.
  split; [|split].
  - intros q _. unfold binary32. destruct (Qeq_bool q 0) eqn:E.
    + apply Qeq_bool_iff in E. assert (Y : (Qabs (0 - q) == 0)%Q) by (rewrite E; reflexivity). assert (Y2 : (Qabs q == 0)%Q) by (rewrite E; reflexivity).
      rewrite Y, Y2. rewrite Qmult_0_r, Qplus_0_l. discriminate.
    + assert (N : ~ (q == 0)%Q) by (intros H; apply Qeq_bool_iff in H; congruence). cbv zeta.
      pose proof (exponent_le N) as L. set (x := exponent q) in *. pose proof (two_pos (x - 23)) as P. set (u := (2 ^ (x - 23))%Q) in *.
      assert (U1 : (2 ^ x == u * inject_Z (2 ^ 23))%Q).
      { unfold u. rewrite <- two_nat by lia. rewrite <- two_plus. replace (x - 23 + 23) with x by lia. reflexivity. }
      pose proof (np_around_half_even (q / u)) as [H _]. unfold nearest in H. set (z := np_around (q / u)) in *. clearbody z u.
      assert (X : (inject_Z z * u - q == (inject_Z z - q / u) * u)%Q) by (field; intros K; rewrite K in P; discriminate).
      rewrite X, Qabs_Qmult, (Qabs_pos u) by (apply Qlt_le_weak; exact P). rewrite U1 in L.
      assert (H' : (Qabs (inject_Z z - q / u) <= 1 # 2)%Q) by (first [exact H|rewrite Qabs_Qminus; exact H]).
      assert (S : (Qabs (inject_Z z - q / u) * u <= (1 # 2) * u)%Q) by (apply Qmult_le_compat_r; [exact H'|apply Qlt_le_weak; exact P]).
      assert (W : ((1 # 2) * u <= (1 # 2 ^ 24) * Qabs q)%Q).
      { apply Qle_trans with ((1 # 2 ^ 24) * (u * inject_Z (2 ^ 23)))%Q.
        - assert (K : ((1 # 2 ^ 24) * (u * inject_Z (2 ^ 23)) == (1 # 2) * u)%Q).
          { rewrite (Qmult_comm u), Qmult_assoc. apply Qmult_comp; [reflexivity|reflexivity]. } rewrite K. apply Qle_refl.
        - rewrite (Qmult_comm (1 # 2 ^ 24) (u * _)), (Qmult_comm (1 # 2 ^ 24) (Qabs q)). apply Qmult_le_compat_r; [exact L|discriminate]. }
      apply Qle_trans with ((1 # 2 ^ 24) * Qabs q)%Q; [eapply Qle_trans; eassumption|].
      rewrite <- (Qplus_0_r ((1 # 2 ^ 24) * Qabs q)) at 1. apply Qplus_le_compat; [apply Qle_refl|discriminate].
  - intros q H. unfold binary32. destruct (Qeq_bool q 0); [apply Qle_refl|]. cbv zeta. apply Qmult_le_0_compat; [|apply Qlt_le_weak, two_pos].
    change 0%Q with (inject_Z 0). rewrite <- Zle_Qle. apply around_nonneg. apply Qle_shift_div_l; [apply two_pos|]. now rewrite Qmult_0_l.
  - intros q H. unfold binary32. apply Qeq_bool_iff in H. rewrite H. reflexivity.
Qed.
