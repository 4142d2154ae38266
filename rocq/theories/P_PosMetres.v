(** Pixel positions of detector geometries from CrystFEL files, all in rounded arithmetic: C109. *)

From Coq Require Import QArith Qabs Lqa.
From Verif Require Import Base PyStr L_Base M_Geom M_GeomFloat M_Crystfel M_CrystFloat S_Geom S_GeomFloat S_Crystfel S_CrystFloat
  L_Geom1 L_Geom2 L_Geom3 L_Geom4 L_GeomFloat L_CrystFloat2 L_GeomNd P_Geom M_PosFloat S_PosFloat L_PosFloat P_PosFloat P_GeomFloat P_CrystFloat P_CrystMetres.

Local Open Scope string_scope.
Local Open Scope Z_scope.
Local Open Scope list_scope.

(** Tiles within 0.9 m of the origin along each axis, with pixels of up to 0.9 mm. *)
Definition geometry_compact (g : geometry) : Prop := forall m t tl, tile_at g m t = Some tl ->
  vsmall (9 # 10) (t_corner tl) /\ vsmall (9 # 10000) (t_ss tl) /\ vsmall (9 # 10000) (t_fs tl).

Lemma small_diff : forall x y M e N : Q, (Qabs (x - y) <= e -> Qabs y <= M -> M + e <= N -> Qabs x <= N)%Q.
Proof. intros x y M e N A B C. apply Qabs_Qle_condition in A, B. apply Qabs_Qle_condition. lra. Qed.
Lemma vsmall_diff : forall v w M e N, vec_diff e v w -> vsmall M w -> (M + e <= N)%Q -> vsmall N v.
Proof. intros v w M e N (A & B & C) (A' & B' & C') H. repeat split; eapply small_diff; eassumption. Qed.
Lemma compact_small : forall g' g, geometry_diff (15 # 10 ^ 14) g' g -> geometry_compact g -> geometry_small g'.
Proof.
  intros g' g D C m t tl E. specialize (D m t). rewrite E in D. destruct (tile_at g m t) as [u|] eqn:Eu; [|contradiction].
  destruct (C _ _ _ Eu) as (C1 & C2 & C3), D as (D1 & D2 & D3 & _).
  split; [|split]; (eapply vsmall_diff; [eassumption|eassumption|vm_compute; discriminate]).
Qed.

Lemma coord_diff : forall p c c' a a' b b' s f : Q, (Qabs (p - (c' + s * a' + f * b')) <= 5 # 10 ^ 15 ->
  Qabs (c' - c) <= 15 # 10 ^ 14 -> Qabs (a' - a) <= 15 # 10 ^ 14 -> Qabs (b' - b) <= 15 # 10 ^ 14 -> Qabs s <= 130 -> Qabs f <= 260 ->
  Qabs (p - (c + s * a + f * b)) <= 1 # 10 ^ 10)%Q.
Proof.
  intros p c c' a a' b b' s f P C A B S F0.
  assert (SA : (Qabs (s * (a' - a)) <= 130 * (15 # 10 ^ 14))%Q).
  { rewrite Qabs_Qmult. apply Qmult_le_compat_nonneg; split; try assumption; apply Qabs_nonneg. }
  assert (FB : (Qabs (f * (b' - b)) <= 260 * (15 # 10 ^ 14))%Q).
  { rewrite Qabs_Qmult. apply Qmult_le_compat_nonneg; split; try assumption; apply Qabs_nonneg. }
  change (10 ^ 14)%positive with 100000000000000%positive in *. change (10 ^ 15)%positive with 1000000000000000%positive in *. change (10 ^ 10)%positive with 10000000000%positive in *.
  apply Qabs_Qle_condition in P, C, SA, FB. apply Qabs_Qle_condition.
  assert (E : (p - (c + s * a + f * b) == (p - (c' + s * a' + f * b')) + (c' - c) + s * (a' - a) + f * (b' - b))%Q) by ring.
  rewrite E. split; lra.
Qed.

Lemma origin_small : forall d s f, S_Geom.in_tile d s f -> (Qabs (fst (pixel_origin d s f)) <= 130 /\ Qabs (snd (pixel_origin d s f)) <= 260)%Q.
Proof.
  intros d s f [S F0]. assert (S1 : 0 <= s <= 128) by (destruct d; cbn in S; lia). assert (F1 : 0 <= f <= 256) by (destruct d; cbn in F0; lia). clear S F0.
  destruct S1 as [S1 S2], F1 as [F1 F2]. rewrite Zle_Qle in S1, S2, F1, F2. change (inject_Z 0) with 0%Q in *. change (inject_Z 128) with 128%Q in *. change (inject_Z 256) with 256%Q in *.
  destruct d; cbn [pixel_origin fst snd]; split; apply Qabs_Qle_condition; try (destruct (Z.odd s)); split; lra.
Qed.

Lemma positions_diff : forall fl d g' g, float64 fl -> fits d g' -> geometry_diff (15 # 10 ^ 14) g' g -> geometry_compact g ->
  exists pos, get_pixel_positions_fl fl d g' false = Ok pos /\
  forall m t tl s f, tile_at g m t = Some tl -> S_Geom.in_tile d s f ->
    vclose (1 # 10 ^ 10) (pos m (fst (data_pixel d t s f)) (snd (data_pixel d t s f))) (point tl (fst (pixel_origin d s f)) (snd (pixel_origin d s f))).
Proof.
  intros fl d g' g F FI D C. destruct (C109_corners fl d g' F FI (compact_small _ _ D C)) as (pos & E & P). exists pos. split; [exact E|].
  intros m t tl s f Ht Hi. specialize (D m t). rewrite Ht in D. destruct (tile_at g' m t) as [u|] eqn:Eu; [|contradiction].
  destruct (P m t u s f Eu Hi) as (P1 & P2 & P3), (origin_small d s f Hi) as (O1 & O2), D as ((A1 & A2 & A3) & (B1 & B2 & B3) & (K1 & K2 & K3) & _).
  cbn [point vx vy vz] in P1, P2, P3. repeat split; cbn [point vx vy vz]; eapply coord_diff; eassumption.
Qed.

Lemma read_fits : forall fl d f gf g, from_crystfel_fl fl d f = Ok gf -> fits d g -> geometry_diff (15 # 10 ^ 14) gf g -> fits d gf.
Proof.
  intros fl d f gf g E FI D. unfold from_crystfel_fl in E. cbv zeta in E. split.
  - apply mapM_length in E. rewrite zr_length in E. rewrite E. destruct d; cbn; lia.
  - intros md I. split.
    + destruct (L_GeomNd.mapM_In E I) as (p & _ & Ep). apply mapM_length in Ep. rewrite zr_length in Ep. rewrite Ep. destruct d; cbn; lia.
    + intros tl J. destruct (L_CrystFloat2.in_tile I J) as (m & t & Ht). specialize (D m t). rewrite Ht in D. destruct (tile_at g m t) as [u|] eqn:Eu; [|contradiction].
      destruct D as (_ & _ & _ & D4 & D5). rewrite D4, D5. unfold tile_at in Eu. destruct ((0 <=? m) && (0 <=? t)); [|discriminate].
      destruct (nth_error g (Z.to_nat m)) as [md0|] eqn:En; [|discriminate]. exact (proj2 (proj2 FI _ (nth_error_In _ _ En)) _ (nth_error_In _ _ Eu)).
Qed.

Lemma compact_within : forall g, geometry_compact g -> within 20 g.
Proof.
  intros g C m t tl E. destruct (C _ _ _ E) as ((A1 & A2 & A3) & (B1 & B2 & B3) & (K1 & K2 & K3)).
  assert (X : forall q M, (Qabs q <= M -> M <= 20 -> Qabs q <= 20)%Q) by (intros; lra).
  repeat split; (eapply X; [eassumption|discriminate]).
Qed.

(** A CrystFEL file read and the positions of its pixels computed, every operation in float64: each pixel corner is
    within 0.1 nanometres of where the file has it. *)
Theorem C109_file : forall fl d f g, float64 fl -> res_usual f -> from_crystfel d f = Ok g -> fits d g -> geometry_compact g ->
  exists gf pos, from_crystfel_fl fl d f = Ok gf /\ get_pixel_positions_fl fl d gf false = Ok pos /\
  forall m t tl s fs, tile_at g m t = Some tl -> S_Geom.in_tile d s fs ->
    vclose (1 # 10 ^ 10) (pos m (fst (data_pixel d t s fs)) (snd (data_pixel d t s fs))) (point tl (fst (pixel_origin d s fs)) (snd (pixel_origin d s fs))).
Proof.
  intros fl d f g F U E FI C. destruct (C107_metres_read fl d f g F U E (compact_within _ C)) as (gf & Ef & D).
  destruct (positions_diff fl d gf g F (read_fits _ _ _ _ _ Ef FI D) D C) as (pos & Ep & P). exists gf, pos. auto.
Qed.
Print Assumptions C109_file.

(** The same for a geometry written to a file and read back. *)
Theorem C109_write_read : forall fl d g dims args, float64 fl -> full d g -> In DFrame dims -> geometry_compact g ->
  exists f gf pos, write_crystfel_fl fl d g dims args = Ok f /\ from_crystfel_fl fl d f = Ok gf /\ get_pixel_positions_fl fl d gf false = Ok pos /\
  forall m t tl s fs, tile_at g m t = Some tl -> S_Geom.in_tile d s fs ->
    vclose (1 # 10 ^ 10) (pos m (fst (data_pixel d t s fs)) (snd (data_pixel d t s fs))) (point tl (fst (pixel_origin d s fs)) (snd (pixel_origin d s fs))).
Proof.
  intros fl d g dims args F FU HD C. destruct (C107_metres_write_read fl d g dims args F FU HD (compact_within _ C)) as (f & gf & Ew & Ef & D).
  destruct (positions_diff fl d gf g F (read_fits _ _ _ _ _ Ef (proj1 FU) D) D C) as (pos & Ep & P). exists f, gf, pos. auto.
Qed.
Print Assumptions C109_write_read.

(** The tilted detector of C107_metres_example has such tiles. *)
Example C109_file_example : full AGIPD deep_g /\ geometry_compact deep_g /\ S_Geom.in_tile AGIPD 63 127.
Proof.
  split; [exact (proj1 C107_metres_example)|]. split; [|split; cbn; lia].
  assert (X : forallb (forallb (fun t => vsmallb (9 # 10) (t_corner t) && vsmallb (9 # 10000) (t_ss t) && vsmallb (9 # 10000) (t_fs t))) deep_g = true) by (vm_compute; reflexivity).
  intros m t tl E. unfold tile_at in E. destruct ((0 <=? m) && (0 <=? t)); [|discriminate]. destruct (nth_error deep_g (Z.to_nat m)) as [md|] eqn:En; [|discriminate].
  rewrite forallb_forall in X. specialize (X _ (nth_error_In _ _ En)). rewrite forallb_forall in X. specialize (X _ (nth_error_In _ _ E)).
  apply andb_true_iff in X as [X X3]. apply andb_true_iff in X as [X1 X2]. repeat split; apply vsmallb_ok; assumption.
Qed.
