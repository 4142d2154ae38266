(** Lemmas about plots: compare and plot_data_fast. *)
From Coq Require Import QArith Qround Qabs Lqa.
From Verif Require Import Base M_Cxi M_Geom S_Geom M_Plot S_Plot L_Base L_Geom1 L_Geom2 L_Geom3 L_Geom4 L_Geom5 L_Geom6 L_Plot.
Set Implicit Arguments.
Unset Strict Implicit.
Local Open Scope Z_scope.
Local Open Scope list_scope.

(** ** compare *)
Definition pts_of (t : tile) (opposite : bool) : pt := if opposite then xy 1 (nth 2 (tile_corners t) vzero) else xy 1 (t_corner t).
Lemma pts_of_corner t o : peq (pts_of t o) (vx (corner t o), vy (corner t o)).
Proof. unfold peq, pts_of, corner, xy, point. destruct o; cbn [fst snd vx vy vadd vmul tile_corners nth]; split; ring. Qed.

Lemma corner_arrow_In scale c1 c2 a : In a (corner_arrow scale c1 c2) <->
  ~ (fst c1 == fst c2 /\ snd c1 == snd c2)%Q /\ a = mk_arrow c1 (scale * (fst c2 - fst c1), scale * (snd c2 - snd c1))%Q.
Proof.
  unfold corner_arrow. destruct (Qeq_bool (fst c2 - fst c1) 0) eqn:A; [destruct (Qeq_bool (snd c2 - snd c1) 0) eqn:B|]; cbn [andb].
  - apply Qeq_bool_eq in A. apply Qeq_bool_eq in B. split; [intros []|]. intros [N _]. apply N. split; lra.
  - apply Qeq_bool_neq in B. split.
    + intros [<-|[]]. split; [|reflexivity]. intros [X Y]. apply B. lra.
    + intros [_ ->]. now left.
  - apply Qeq_bool_neq in A. split.
    + intros [<-|[]]. split; [|reflexivity]. intros [X Y]. apply A. lra.
    + intros [_ ->]. now left.
Qed.

Lemma compare_tile_ok other scale m t tl r : 0 <= m -> 0 <= t -> compare_tile other scale m (t, tl) = Ok r -> exists tl', tile_at other m t = Some tl' /\
  (forall a, In a (snd r) <-> exists o, In a (corner_arrow scale (pts_of tl o) (pts_of tl' o))) /\
  (forall p s, In (p, s) (fst r) -> p = xy 1 (tile_centre tl)).
Proof.
  intros Hm Ht. unfold compare_tile. destruct (nth_error other (Z.to_nat m)) as [md|] eqn:E1; [|discriminate].
  destruct (nth_error md (Z.to_nat t)) as [t2|] eqn:E2; [|discriminate]. intros H. apply Ok_inj in H. subst r. exists t2.
  split; [apply tile_at_intro with md; assumption|]. cbn [fst snd]. split.
  - intros a. rewrite in_app_iff. split.
    + intros [X|X]; [exists false|exists true]; exact X.
    + intros ([|] & X); [right|left]; exact X.
  - intros p s X. destruct ((t =? 0) || (t =? 7)); [destruct X as [X|[]]; congruence|]. destruct (t =? 4); [destruct X as [X|[]]; congruence|destruct X].
Qed.

Lemma fold_qmin_le (l : list pt) (f : pt -> Q) c x : In x (c :: l) -> (fold_left qmin (map f l) (f c) <= f x)%Q.
Proof. intros H. apply (proj1 (qmin_list_spec (map f l) (f c))). change (f c :: map f l) with (map f (c :: l)). now apply in_map. Qed.
Lemma fold_qmax_le (l : list pt) (f : pt -> Q) c x : In x (c :: l) -> (f x <= fold_left qmax (map f l) (f c))%Q.
Proof. intros H. apply (proj1 (qmax_list_spec (map f l) (f c))). change (f c :: map f l) with (map f (c :: l)). now apply in_map. Qed.

Lemma compare_ok axy g other scale c : compare axy g other scale = Ok c ->
  cm_polygons c = map (fun t => map (xy 1) (tile_corners t)) (List.concat g) /\
  (forall a, In a (cm_arrows c) <-> exists m t tl tl' o, tile_at g m t = Some tl /\ tile_at other m t = Some tl' /\ In a (corner_arrow scale (pts_of tl o) (pts_of tl' o))) /\
  (forall m t tl, tile_at g m t = Some tl -> exists tl', tile_at other m t = Some tl') /\
  (forall p s, In (p, s) (cm_texts c) -> exists m t tl, tile_at g m t = Some tl /\ p = xy 1 (tile_centre tl)) /\
  (forall q poly, In poly (cm_polygons c) -> In q poly -> (fst (cm_xlim c) + 20 <= fst q /\ fst q + 20 <= snd (cm_xlim c) /\ fst (cm_ylim c) + 40 <= snd q /\ snd q + 20 <= snd (cm_ylim c))%Q) /\
  (forall a q, In a (cm_arrows c) -> In q (axy a) -> (fst (cm_xlim c) + 20 <= fst q /\ fst q + 20 <= snd (cm_xlim c) /\ fst (cm_ylim c) + 40 <= snd q /\ snd q + 20 <= snd (cm_ylim c))%Q) /\
  (fst (cm_xlim c) + 40 <= snd (cm_xlim c))%Q.
Proof.
  unfold compare. intros H. apply bind_ok in H as (parts & Hp & H). set (rects := map _ (List.concat g)) in *.
  destruct (flat_map axy (flat_map snd (List.concat parts)) ++ List.concat rects) as [|p0 ps] eqn:E; [discriminate|]. apply Ok_inj in H. subst c.
  cbn [cm_polygons cm_arrows cm_texts cm_xlim cm_ylim].
  assert (TI : forall m t tl, tile_at g m t = Some tl -> exists r, In r (List.concat parts) /\ compare_tile other scale m (t, tl) = Ok r).
  { intros m t tl Ht. apply tile_at_elim in Ht as (A & B & md & E1 & E2). destruct (plot_mapM_in Hp (x := (m, md))) as (l & L1 & L2); [apply zenum_In; auto|].
    cbn [fst snd] in L2. destruct (plot_mapM_in L2 (x := (t, tl))) as (r & R1 & R2); [apply zenum_In; auto|]. exists r. split; [apply in_concat; eauto|exact R2]. }
  assert (TO : forall r, In r (List.concat parts) -> exists m t tl, tile_at g m t = Some tl /\ 0 <= m /\ 0 <= t /\ compare_tile other scale m (t, tl) = Ok r).
  { intros r Hr. apply in_concat in Hr as (l & L1 & L2). destruct (plot_mapM_out Hp L1) as ((m & md) & M1 & M2). cbn [fst snd] in M2.
    destruct (plot_mapM_out M2 L2) as ((t & tl) & T1 & T2). apply zenum_In in M1 as [M1 M3]. apply zenum_In in T1 as [T1 T3]. exists m, t, tl.
    split; [apply tile_at_intro with md; auto|]. auto. }
  split; [reflexivity|]. split; [|split; [|split; [|split; [|split]]]].
  - intros a. rewrite in_flat_map. split.
    + intros (r & R1 & R2). destruct (TO r R1) as (m & t & tl & T1 & T2 & T3 & T4). destruct (compare_tile_ok T2 T3 T4) as (tl' & U1 & U2 & _).
      apply U2 in R2 as (o & O). exists m, t, tl, tl', o. auto.
    + intros (m & t & tl & tl' & o & T1 & T2 & T3). destruct (TI m t tl T1) as (r & R1 & R2). exists r. split; [exact R1|].
      destruct (tile_at_elim T1) as (A & B & _). destruct (compare_tile_ok A B R2) as (tl2 & U1 & U2 & _). rewrite T2 in U1. injection U1 as <-. apply U2. eauto.
  - intros m t tl T1. destruct (TI m t tl T1) as (r & R1 & R2). destruct (tile_at_elim T1) as (A & B & _). destruct (compare_tile_ok A B R2) as (tl2 & U1 & _). eauto.
  - intros p s Hs. apply in_flat_map in Hs as (r & R1 & R2). destruct (TO r R1) as (m & t & tl & T1 & T2 & T3 & T4). destruct (compare_tile_ok T2 T3 T4) as (tl' & U1 & _ & U2).
    exists m, t, tl. split; [exact T1|]. exact (U2 p s R2).
  - intros q poly Hpoly Hq. assert (I : In q (p0 :: ps)) by (rewrite <- E; apply in_app_iff; right; apply in_concat; eauto). cbn [fst snd].
    pose proof (fold_qmin_le (f:=fst) I). pose proof (fold_qmax_le (f:=fst) I). pose proof (fold_qmin_le (f:=snd) I). pose proof (fold_qmax_le (f:=snd) I). lra.
  - intros a q Ha Hq. assert (I : In q (p0 :: ps)) by (rewrite <- E; apply in_app_iff; left; apply in_flat_map; eauto). cbn [fst snd].
    pose proof (fold_qmin_le (f:=fst) I). pose proof (fold_qmax_le (f:=fst) I). pose proof (fold_qmin_le (f:=snd) I). pose proof (fold_qmax_le (f:=snd) I). lra.
  - cbn [fst snd]. pose proof (fold_qmin_le (f:=fst) (l := ps) (x := p0) (in_eq _ _)). pose proof (fold_qmax_le (f:=fst) (l := ps) (x := p0) (in_eq _ _)). lra.
Qed.

Lemma compare_total axy g other scale : List.concat g <> [] -> (forall m t tl, tile_at g m t = Some tl -> exists tl', tile_at other m t = Some tl') ->
  exists c, compare axy g other scale = Ok c.
Proof.
  intros N H. unfold compare.
  destruct (plot_mapM_total (f := fun im => mapM (compare_tile other scale (fst im)) (zenum (snd im))) (l := zenum g)) as [parts ->].
  { intros [m md] Hm. apply zenum_In in Hm as [M1 M2]. cbn [fst snd]. apply plot_mapM_total. intros [t tl] Ht. apply zenum_In in Ht as [T1 T2].
    destruct (H m t tl) as [tl' T']; [apply tile_at_intro with md; auto|]. apply tile_at_elim in T' as (_ & _ & md' & E1 & E2).
    unfold compare_tile. rewrite E1, E2. eauto. }
  cbn [bind]. set (rects := map _ (List.concat g)). destruct (_ ++ List.concat rects) eqn:E; [|eauto].
  exfalso. apply app_eq_nil in E as [_ E]. destruct (List.concat g) as [|t ts]; [congruence|]. cbn in E. discriminate.
Qed.
Lemma compare_missing axy g other scale m t tl : tile_at g m t = Some tl -> tile_at other m t = None -> compare axy g other scale = Err EIndexError.
Proof.
  intros T N. unfold compare.
  assert (E : forall p, compare_tile other scale (fst p) (snd p) = Err EIndexError \/ exists r, compare_tile other scale (fst p) (snd p) = Ok r).
  { intros [p [a x]]. cbn [fst snd]. unfold compare_tile. destruct (nth_error other (Z.to_nat p)) as [md|]; [|auto]. destruct (nth_error md (Z.to_nat a)); eauto. }
  apply tile_at_elim in T as (A & B & md & E1 & E2).
  assert (X : mapM (fun im => mapM (compare_tile other scale (fst im)) (zenum (snd im))) (zenum g) = Err EIndexError).
  { assert (F : forall (im : Z * list tile) l, mapM (compare_tile other scale (fst im)) l = Err EIndexError \/ exists r, mapM (compare_tile other scale (fst im)) l = Ok r).
    { intros im. induction l as [|x l IH]; [right; exists []; reflexivity|]. simpl. destruct (E (fst im, x)) as [X|[r X]]; cbn [fst snd] in X; rewrite X; cbn [bind]; [auto|].
      destruct IH as [->|[r' ->]]; cbn [bind]; eauto. }
    assert (G : mapM (compare_tile other scale m) (zenum md) = Err EIndexError).
    { assert (I : In (t, tl) (zenum md)) by (apply zenum_In; auto). assert (Y : compare_tile other scale m (t, tl) = Err EIndexError).
      { unfold compare_tile. unfold tile_at in N. apply Z.leb_le in A. apply Z.leb_le in B. rewrite A, B in N. cbn [andb] in N.
        destruct (nth_error other (Z.to_nat m)) as [md'|]; [|reflexivity]. rewrite N. reflexivity. }
      induction (zenum md) as [|x l IH]; [destruct I|]. simpl. destruct I as [->|I]; [rewrite Y; reflexivity|].
      destruct (E (m, x)) as [X|[r X]]; cbn [fst snd] in X; rewrite X; cbn [bind]; [reflexivity|]. rewrite (IH I). reflexivity. }
    assert (I : In (m, md) (zenum g)) by (apply zenum_In; auto). induction (zenum g) as [|x l IH]; [destruct I|]. simpl. destruct I as [->|I].
    - cbn [fst snd]. rewrite G. reflexivity.
    - destruct (F x (zenum (snd x))) as [->|[r ->]]; cbn [bind]; [reflexivity|]. rewrite (IH I). reflexivity. }
  rewrite X. reflexivity.
Qed.

(** ** plot_data_fast *)
Lemma per_pixel_pos d units k : per_pixel d units k -> (0 < k)%Q.
Proof. intros [[_ ->]|[_ ->]]; [reflexivity|destruct d; reflexivity]. Qed.

(** One axis: n cells evenly over [(- c - 1/2) k, (n - c + 1/2) k]. *)
Definition edge (k : Q) (n c j : Z) : Q :=
  ((inject_Z (- c) - (1 # 2)) * k + inject_Z j * ((inject_Z (n - c) + (1 # 2)) * k - (inject_Z (- c) - (1 # 2)) * k) / inject_Z n)%Q.
Lemma edge_eq k n c j : 0 < n -> (edge k n c j == (inject_Z j - inject_Z c - (1 # 2)) * k + inject_Z j * k / inject_Z n)%Q.
Proof.
  intros Hn. unfold edge. assert (N : ~ (inject_Z n == 0)%Q) by (intros X; change 0%Q with (inject_Z 0) in X; rewrite inject_Z_injective in X; lia).
  replace (n - c) with (n + - c) by lia. rewrite inject_Z_plus, inject_Z_opp. field. exact N.
Qed.
Lemma edge_mono k n c j j' : 0 < n -> (0 < k)%Q -> j <= j' -> (edge k n c j <= edge k n c j')%Q.
Proof.
  intros Hn Hk Hj. rewrite !edge_eq by exact Hn. assert (N : (0 < inject_Z n)%Q) by (change 0%Q with (inject_Z 0); rewrite <- Zlt_Qlt; lia).
  assert (J : (inject_Z j <= inject_Z j')%Q) by (rewrite <- Zle_Qle; lia).
  assert (D : (inject_Z j * k / inject_Z n <= inject_Z j' * k / inject_Z n)%Q) by (apply Qmult_le_compat_r; [nra|apply Qinv_le_0_compat; lra]). nra.
Qed.
Lemma edge_bounds k n c j : 0 <= j <= n -> 0 < n -> (0 < k)%Q ->
  ((inject_Z (j - c) - (1 # 2)) * k <= edge k n c j <= (inject_Z (j - c) + (1 # 2)) * k)%Q /\
  (0 < j -> ((inject_Z (j - c) - (1 # 2)) * k < edge k n c j)%Q) /\ (j < n -> (edge k n c j < (inject_Z (j - c) + (1 # 2)) * k)%Q).
Proof.
  intros Hj Hn Hk. assert (N : (0 < inject_Z n)%Q) by (change 0%Q with (inject_Z 0); rewrite <- Zlt_Qlt; lia).
  assert (J0 : (0 <= inject_Z j)%Q) by (change 0%Q with (inject_Z 0); rewrite <- Zle_Qle; lia).
  assert (J1 : (inject_Z j <= inject_Z n)%Q) by (rewrite <- Zle_Qle; lia).
  set (D := (inject_Z j * k / inject_Z n)%Q). assert (D0 : (D * inject_Z n == inject_Z j * k)%Q) by (unfold D; field; lra).
  replace (j - c) with (j + - c) by lia. rewrite inject_Z_plus, inject_Z_opp. rewrite (edge_eq k c j Hn). fold D.
  assert (D1 : (0 <= D)%Q) by (unfold D; apply Qle_shift_div_l; [exact N|nra]). assert (D2 : (D <= k)%Q) by (unfold D; apply Qle_shift_div_r; [exact N|nra]).
  split; [split; nra|]. split.
  - intros P. assert (J2 : (0 < inject_Z j)%Q) by (change 0%Q with (inject_Z 0); rewrite <- Zlt_Qlt; lia). assert (0 < D)%Q by (unfold D; apply Qlt_shift_div_l; [exact N|nra]). nra.
  - intros P. assert (J2 : (inject_Z j < inject_Z n)%Q) by (rewrite <- Zlt_Qlt; lia). assert (D < k)%Q by (unfold D; apply Qlt_shift_div_r; [exact N|nra]). nra.
Qed.
(** The middle of grid cell z is inside drawn cell z + c, and in no other. *)
Lemma mid_inside k n c z : 0 <= z + c < n -> (0 < k)%Q -> (edge k n c (z + c) < mid k z < edge k n c (z + c + 1))%Q.
Proof.
  intros H Hk. destruct (@edge_bounds k n c (z + c)) as (_ & _ & A); [lia|lia|exact Hk|]. destruct (@edge_bounds k n c (z + c + 1)) as (_ & B & _); [lia|lia|exact Hk|].
  specialize (A ltac:(lia)). specialize (B ltac:(lia)). replace (z + c - c) with z in A by lia. replace (z + c + 1 - c) with (z + 1) in B by lia.
  rewrite inject_Z_plus in B. unfold mid. split; [lra|]. change (inject_Z 1) with 1%Q in B. nra.
Qed.
Lemma inside_unique k n c j j' x : 0 < n -> (0 < k)%Q -> (edge k n c j < x < edge k n c (j + 1))%Q -> (edge k n c j' <= x <= edge k n c (j' + 1))%Q -> j' = j.
Proof.
  intros Hn Hk [A B] [C D]. destruct (Z.lt_trichotomy j' j) as [L|[L|L]]; [exfalso|exact L|exfalso].
  - pose proof (edge_mono (c := c) (j := j' + 1) (j' := j) Hn Hk ltac:(lia)). lra.
  - pose proof (edge_mono (c := c) (j := j + 1) (j' := j') Hn Hk ltac:(lia)). lra.
Qed.
Lemma inside_close k n c j x : 0 <= j < n -> (0 < k)%Q -> (edge k n c j <= x <= edge k n c (j + 1))%Q -> (Qabs (x - mid k (j - c)) <= k)%Q.
Proof.
  intros Hj Hk [A B]. destruct (@edge_bounds k n c j) as ((L & _) & _); [lia|lia|exact Hk|]. destruct (@edge_bounds k n c (j + 1)) as ((_ & R) & _); [lia|lia|exact Hk|].
  replace (j + 1 - c) with (j - c + 1) in R by lia. rewrite inject_Z_plus in R. change (inject_Z 1) with 1%Q in R. unfold mid. apply Qabs_case; intros _; nra.
Qed.

Definition default_extent (k : Q) (H W cy cx : Z) : Q * Q * Q * Q :=
  ((inject_Z (- cx) - (1 # 2)) * k, (inject_Z (W - cx) + (1 # 2)) * k, (inject_Z (- cy) - (1 # 2)) * k, (inject_Z (H - cy) + (1 # 2)) * k)%Q.
Lemma default_cell k H W cy cx i j x y : in_cell (H, W) (default_extent k H W cy cx) true i j x y <->
  0 <= i < H /\ 0 <= j < W /\ (edge k W cx j <= x <= edge k W cx (j + 1))%Q /\ (edge k H cy i <= y <= edge k H cy (i + 1))%Q.
Proof. unfold in_cell, default_extent. split; intros (A & B & C & D); repeat split; try lia; try apply C; try apply D. Qed.

(** The numbers used in the code for these units. *)
Definition unit_px (d : detector) (units : string) : Q := if String.eqb units "m" then pixel_size d else 1%Q.
Lemma unit_px_spec d units k : per_pixel d units k -> unit_px d units = k /\ (String.eqb units "px" || String.eqb units "m")%bool = true.
Proof. unfold unit_px. intros [[-> H]|[-> H]]; subst k; split; reflexivity. Qed.
Lemma unit_px_per d units : (String.eqb units "px" || String.eqb units "m")%bool = true -> per_pixel d units (unit_px d units).
Proof.
  unfold unit_px, per_pixel. intros H. destruct (String.eqb units "m") eqn:E.
  - apply String.eqb_eq in E. right. split; [exact E|reflexivity].
  - rewrite orb_false_r in H. apply String.eqb_eq in H. left. split; [exact H|reflexivity].
Qed.

Lemma plot_ok A rs d g (nan : A) data units fv : fits d g -> snappable (pixel_shape rs d) g -> List.concat g <> [] ->
  (String.eqb units "px" || String.eqb units "m")%bool = true ->
  exists H W cy cx img p,
    position_modules_fast nan rs d g (16, mod_ss d, mod_fs d) data None = Ok (img, (cy, cx)) /\ output_shape rs d g = Ok (H, W) /\
    plot_data_fast nan rs d g [] (16, mod_ss d, mod_fs d) data units fv None None = Ok p /\
    dp_image p = img /\ dp_size p = (H, W) /\ dp_extent p = default_extent (unit_px d units) H W cy cx /\ dp_lower p = true /\ dp_x_inverted p = fv /\
    dp_cross p = [((- (20 * unit_px d units), 0), (20 * unit_px d units, 0)); ((0, - (20 * unit_px d units)), (0, 20 * unit_px d units))]%Q /\
    dp_label p = axis_label units.
Proof.
  intros F S N U. destruct (@assemble_spec A rs d g F S N) as (H & W & cy & cx & Es & _ & _ & _ & _ & _ & K).
  destruct (K nan data None) as (img & E & _); [discriminate|]. change (n_modules d) with 16 in E.
  unfold output_shape in Es. destruct (snap_geometry rs d g) as [sn|] eqn:Esn; [|discriminate]. cbn [bind] in Es. apply Ok_inj in Es.
  exists H, W, cy, cx, img. unfold plot_data_fast. unfold position_modules_fast in E |- *. unfold output_shape. rewrite Esn in E |- *. cbn [bind] in E |- *. rewrite U. cbn [negb]. rewrite E, Es. cbn [bind].
  eexists. split; [reflexivity|]. split; [reflexivity|]. split; [reflexivity|]. cbn [dp_image dp_size dp_extent dp_lower dp_x_inverted dp_cross dp_label]. repeat split; reflexivity.
Qed.
