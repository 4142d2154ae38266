(** Lemmas about plots of detector geometry. *)
From Coq Require Import QArith Qround Qabs Lqa.
From Verif Require Import Base M_Cxi M_Geom S_Geom M_Plot S_Plot L_Base L_Geom1 L_Geom2 L_Geom4 L_Geom5 L_Geom6 L_Cxi7.
Set Implicit Arguments.
Unset Strict Implicit.
Local Open Scope Z_scope.
Local Open Scope list_scope.

Lemma plot_scale_spec d units k : plot_scale d units = Ok k -> per_metre d units k.
Proof.
  unfold plot_scale, per_metre. destruct (String.eqb units "m") eqn:E.
  - apply String.eqb_eq in E. intros H. injection H as <-. left. split; [exact E|reflexivity].
  - destruct (String.eqb units "px") eqn:E2; [|discriminate]. apply String.eqb_eq in E2. intros H. apply Ok_inj in H. subst k. right.
    split; [exact E2|]. field. apply ps_nz.
Qed.
Lemma per_metre_units d units k : per_metre d units k -> exists k', plot_scale d units = Ok k' /\ (k' == k)%Q.
Proof.
  unfold plot_scale. intros [[-> H]|[-> H]]; cbn [String.eqb Ascii.eqb Bool.eqb].
  - exists 1%Q. split; [reflexivity|]. now symmetry.
  - exists (1 / pixel_size d)%Q. split; [reflexivity|]. rewrite <- H. field. apply ps_nz.
Qed.

Lemma plot_mapM_out A B (f : A -> res B) l r y : mapM f l = Ok r -> In y r -> exists x, In x l /\ f x = Ok y.
Proof.
  revert r; induction l as [|x l IH]; intros r H Hy; simpl in H.
  - injection H as <-. destruct Hy.
  - apply bind_ok in H as (b & Hb & H). apply bind_ok in H as (bs & Hbs & H). injection H as <-. destruct Hy as [<-|Hy]; [exists x; auto using in_eq|].
    destruct (IH _ Hbs Hy) as (x' & X1 & X2). exists x'. auto using in_cons.
Qed.
Lemma plot_mapM_in A B (f : A -> res B) l r x : mapM f l = Ok r -> In x l -> exists y, In y r /\ f x = Ok y.
Proof.
  revert r; induction l as [|a l IH]; intros r H Hx; simpl in H; [destruct Hx|].
  apply bind_ok in H as (b & Hb & H). apply bind_ok in H as (bs & Hbs & H). injection H as <-. destruct Hx as [->|Hx]; [exists b; auto using in_eq|].
  destruct (IH _ Hbs Hx) as (y & Y1 & Y2). exists y. auto using in_cons.
Qed.
Lemma plot_mapM_total A B (f : A -> res B) l : (forall x, In x l -> exists y, f x = Ok y) -> exists r, mapM f l = Ok r.
Proof.
  induction l as [|a l IH]; intros H; [exists []; reflexivity|]. simpl. destruct (H a (in_eq _ _)) as [b ->]. cbn [bind].
  destruct IH as [r ->]; [intros x Hx; apply H; now right|]. cbn [bind]. eauto.
Qed.

(** ** Polygons *)
Lemma mix4 : forall c0 c1 c2 c3 w p, mix [c0; c1; c2; c3] w p <-> exists w0 w1 w2 w3, (0 <= w0 /\ 0 <= w1 /\ 0 <= w2 /\ 0 <= w3)%Q /\
  w = (w0 + (w1 + (w2 + (w3 + 0))))%Q /\
  p = (w0 * fst c0 + (w1 * fst c1 + (w2 * fst c2 + (w3 * fst c3 + 0))), w0 * snd c0 + (w1 * snd c1 + (w2 * snd c2 + (w3 * snd c3 + 0))))%Q.
Proof.
  intros c0 c1 c2 c3 w p. split.
  - intros H. inversion H as [|a l w0 ws0 p0 H0 M0]; subst. inversion M0 as [|a1 l1 w1 ws1 p1 H1 M1]; subst.
    inversion M1 as [|a2 l2 w2 ws2 p2 H2 M2]; subst. inversion M2 as [|a3 l3 w3 ws3 p3 H3 M3]; subst. inversion M3; subst.
    exists w0, w1, w2, w3. cbn [fst snd]. auto.
  - intros (w0 & w1 & w2 & w3 & (H0 & H1 & H2 & H3) & -> & ->).
    change (mix [c0; c1; c2; c3] (w0 + (w1 + (w2 + (w3 + 0))))%Q
      (w0 * fst c0 + fst (w1 * fst c1 + (w2 * fst c2 + (w3 * fst c3 + 0)), w1 * snd c1 + (w2 * snd c2 + (w3 * snd c3 + 0))),
       w0 * snd c0 + snd (w1 * fst c1 + (w2 * fst c2 + (w3 * fst c3 + 0)), w1 * snd c1 + (w2 * snd c2 + (w3 * snd c3 + 0))))%Q).
    apply mix_cons; [exact H0|].
    change (mix [c1; c2; c3] (w1 + (w2 + (w3 + 0)))%Q
      (w1 * fst c1 + fst (w2 * fst c2 + (w3 * fst c3 + 0), w2 * snd c2 + (w3 * snd c3 + 0)),
       w1 * snd c1 + snd (w2 * fst c2 + (w3 * fst c3 + 0), w2 * snd c2 + (w3 * snd c3 + 0)))%Q).
    apply mix_cons; [exact H1|].
    change (mix [c2; c3] (w2 + (w3 + 0))%Q
      (w2 * fst c2 + fst (w3 * fst c3 + 0, w3 * snd c3 + 0), w2 * snd c2 + snd (w3 * fst c3 + 0, w3 * snd c3 + 0))%Q).
    apply mix_cons; [exact H2|].
    change (mix [c3] (w3 + 0)%Q (w3 * fst c3 + fst (0, 0), w3 * snd c3 + snd (0, 0))%Q).
    apply mix_cons; [exact H3|constructor].
Qed.

Lemma polygon_shows k t : 0 < t_ss_px t -> 0 < t_fs_px t -> shows_tile k t (map (xy k) (tile_corners t)).
Proof.
  intros HS HF p. cbn [map tile_corners]. unfold in_polygon, drawn_at, on_tile, peq.
  assert (PS : (0 < inject_Z (t_ss_px t))%Q) by (change 0%Q with (inject_Z 0); rewrite <- Zlt_Qlt; exact HS).
  assert (PF : (0 < inject_Z (t_fs_px t))%Q) by (change 0%Q with (inject_Z 0); rewrite <- Zlt_Qlt; exact HF).
  set (S := inject_Z (t_ss_px t)) in *. set (F := inject_Z (t_fs_px t)) in *.
  split.
  - intros (w & q & M & W & P1 & P2). apply mix4 in M as (w0 & w1 & w2 & w3 & (H0 & H1 & H2 & H3) & -> & ->). cbn [fst snd] in P1, P2.
    exists (S * (w2 + w3))%Q, (F * (w1 + w2))%Q. assert (W0 : (w0 == 1 - w1 - w2 - w3)%Q) by lra.
    split; [split; split; nra|]. cbn [point fst snd vx vy]. rewrite P1, P2. unfold xy. cbn [fst snd vx vy vadd vmul]. rewrite W0. fold S F. split; ring.
  - intros (a & b & [[A1 A2] [B1 B2]] & P1 & P2). set (u := (a / S)%Q). set (v := (b / F)%Q).
    assert (Ua : (a == u * S)%Q) by (unfold u; field; lra). assert (Vb : (b == v * F)%Q) by (unfold v; field; lra).
    assert (U : (0 <= u <= 1)%Q).
    { split; [apply Qle_shift_div_l; lra|apply Qle_shift_div_r; lra]. }
    assert (V : (0 <= v <= 1)%Q).
    { split; [apply Qle_shift_div_l; lra|apply Qle_shift_div_r; lra]. }
    eexists. eexists. split; [apply mix4; exists ((1 - u) * (1 - v))%Q, ((1 - u) * v)%Q, (u * v)%Q, (u * (1 - v))%Q; split; [|split; reflexivity]|].
    + repeat split; apply Qmult_le_0_compat; lra.
    + split; [ring|]. cbn [fst snd] in *. rewrite P1, P2. unfold xy, point. cbn [fst snd vx vy vadd vmul]. rewrite Ua, Vb. fold S F. split; ring.
Qed.

(** ** inspect *)
Lemma centre_drawn k t : drawn_at k t ((1 # 2) * inject_Z (t_ss_px t)) ((1 # 2) * inject_Z (t_fs_px t)) (xy k (tile_centre t)).
Proof. unfold drawn_at, peq, xy, tile_centre, point. cbn [fst snd vx vy vadd vmul]. split; ring. Qed.
Lemma row_drawn k t : drawn_at k t 0 0 (fst (first_row k t)) /\ drawn_at k t 0 (inject_Z (t_fs_px t)) (snd (first_row k t)).
Proof. unfold drawn_at, peq, first_row, xy, point. cbn [fst snd vx vy vadd vmul]. repeat split; ring. Qed.

Lemma tile_at_intro (g : geometry) m md t tl : 0 <= m -> nth_error g (Z.to_nat m) = Some md -> 0 <= t -> nth_error md (Z.to_nat t) = Some tl ->
  tile_at g m t = Some tl.
Proof. intros Hm Em Ht Et. unfold tile_at. apply Z.leb_le in Hm. apply Z.leb_le in Ht. rewrite Hm, Ht, Em. exact Et. Qed.
Lemma tile_at_elim (g : geometry) m t tl : tile_at g m t = Some tl -> 0 <= m /\ 0 <= t /\ exists md, nth_error g (Z.to_nat m) = Some md /\ nth_error md (Z.to_nat t) = Some tl.
Proof.
  unfold tile_at. intros H. destruct (0 <=? m) eqn:A; [|discriminate]. destruct (0 <=? t) eqn:B; [|discriminate]. cbn [andb] in H.
  destruct (nth_error g (Z.to_nat m)) as [md|]; [|discriminate]. apply Z.leb_le in A. apply Z.leb_le in B. split; [exact A|]. split; [exact B|]. exists md. auto.
Qed.

Definition rows_of (d : detector) (k : Q) (g : geometry) : list (pt * pt) :=
  flat_map (fun md => flat_map (fun it => if fst it + 1 =? first_px_tile d then [first_row k (snd it)] else []) (zenum md)) g.
Lemma rows_of_In d k g r : In r (rows_of d k g) <-> exists m tl, tile_at g m (first_px_tile d - 1) = Some tl /\ r = first_row k tl.
Proof.
  unfold rows_of. rewrite in_flat_map. split.
  - intros (md & H1 & H2). apply in_flat_map in H2 as ((i & tl) & H2 & H3). cbn [fst snd] in H3. destruct (i + 1 =? first_px_tile d) eqn:E; [|destruct H3].
    destruct H3 as [<-|[]]. apply Z.eqb_eq in E. apply In_nth_error in H1 as [n Hn]. apply zenum_In in H2 as [I1 I2].
    exists (Z.of_nat n), tl. split; [|reflexivity]. apply tile_at_intro with md; [lia|now rewrite Nat2Z.id|lia|]. replace (first_px_tile d - 1) with i by lia. exact I2.
  - intros (m & tl & Ht & ->). apply tile_at_elim in Ht as (_ & B & md & E1 & E2). exists md. split; [eapply nth_error_In; exact E1|].
    apply in_flat_map. exists (first_px_tile d - 1, tl). split; [apply zenum_In; auto|]. cbn [fst snd]. rewrite Z.sub_add, Z.eqb_refl. now left.
Qed.
Lemma first_px_data d : data_pixel d (first_px_tile d - 1) 0 0 = (0, 0).
Proof. destruct d; reflexivity. Qed.

Lemma base_inspect_ok d g units fv ax : base_inspect d g units fv = Ok ax -> exists k, plot_scale d units = Ok k /\
  ax_polygons ax = map (fun t => map (xy k) (tile_corners t)) (List.concat g) /\
  ax_markers ax = map fst (rows_of d k g) /\ ax_segments ax = rows_of d k g /\
  ax_cross ax = [((- ((2 # 100) * k), 0), ((2 # 100) * k, 0)); ((0, - ((2 # 100) * k)), (0, (2 # 100) * k))]%Q /\
  ax_x_inverted ax = fv /\ ax_label ax = axis_label units.
Proof.
  unfold base_inspect. intros H. apply bind_ok in H as (k & Hk & H). exists k. split; [exact Hk|]. fold (rows_of d k g) in H.
  destruct (rows_of d k g) as [|r rs] eqn:E; [discriminate|]. apply Ok_inj in H. subst ax. cbn [ax_polygons ax_markers ax_segments ax_cross ax_x_inverted ax_label].
  repeat split; reflexivity.
Qed.
Lemma base_inspect_total d g units fv k : plot_scale d units = Ok k -> (exists m tl, tile_at g m (first_px_tile d - 1) = Some tl) -> exists ax, base_inspect d g units fv = Ok ax.
Proof.
  intros Hk (m & tl & Ht). unfold base_inspect. rewrite Hk. cbn [bind]. fold (rows_of d k g). destruct (rows_of d k g) as [|r rs] eqn:E; [|eauto].
  exfalso. assert (I : In (first_row k tl) (rows_of d k g)) by (apply rows_of_In; eauto). rewrite E in I. destruct I.
Qed.

Definition module_name (m : Z) : string := ("Q" ++ str_of_int (m / 4 + 1) ++ "M" ++ str_of_int (m mod 4 + 1))%string.
Definition tile_name (t : Z) : string := ("T" ++ str_of_int (t + 1))%string.
Lemma centre_of_ok k md i p : centre_of k md i = Ok p -> exists tl, nth_error md (Z.to_nat i) = Some tl /\ p = xy k (tile_centre tl).
Proof. unfold centre_of. destruct (nth_error md (Z.to_nat i)) as [tl|]; [|discriminate]. intros H. apply Ok_inj in H. subst p. eauto. Qed.
Lemma name_tile_pos d : 0 <= name_tile d.
Proof. destruct d; cbn; lia. Qed.
Lemma number_tiles_pos d t : In t (number_tiles d) -> 0 <= t < n_tiles d.
Proof. destruct d; cbn; intuition lia. Qed.
Lemma module_texts_ok d k m md l : module_texts d k (m, md) = Ok l ->
  (exists tl, nth_error md (Z.to_nat (name_tile d)) = Some tl /\ In (xy k (tile_centre tl), module_name m) l) /\
  forall p s, In (p, s) l -> exists t tl, 0 <= t /\ nth_error md (Z.to_nat t) = Some tl /\ p = xy k (tile_centre tl) /\ (s = module_name m \/ s = tile_name t).
Proof.
  unfold module_texts. intros H. apply bind_ok in H as (c & Hc & H). apply bind_ok in H as (ts & Hts & H). apply Ok_inj in H. subst l.
  apply centre_of_ok in Hc as (tl & E & ->). split; [exists tl; split; [exact E|now left]|]. intros p s [X|X].
  - injection X as <- <-. exists (name_tile d), tl. split; [apply name_tile_pos|]. auto.
  - destruct (plot_mapM_out Hts X) as (t & T1 & T2). apply bind_ok in T2 as (c & Hc & T2). apply Ok_inj in T2. injection T2 as <- <-.
    apply centre_of_ok in Hc as (tl' & E' & ->). exists t, tl'. apply number_tiles_pos in T1. split; [lia|]. auto.
Qed.

Lemma inspect_ok d g fn units fv ax : inspect d g fn units fv = Ok ax -> exists k, plot_scale d units = Ok k /\
  ax_polygons ax = map (fun t => map (xy k) (tile_corners t)) (List.concat g) /\
  ax_markers ax = map fst (rows_of d k g) /\ ax_segments ax = rows_of d k g /\
  ax_cross ax = [((- ((2 # 100) * k), 0), ((2 # 100) * k, 0)); ((0, - ((2 # 100) * k)), (0, (2 # 100) * k))]%Q /\
  ax_x_inverted ax = fv /\ ax_label ax = axis_label units /\ ax_title ax = plot_title d fn /\
  (forall m md, 0 <= m -> nth_error g (Z.to_nat m) = Some md -> exists t tl p, tile_at g m t = Some tl /\ In (p, module_name m) (ax_texts ax) /\ p = xy k (tile_centre tl)) /\
  forall p s, In (p, s) (ax_texts ax) -> exists m t tl, tile_at g m t = Some tl /\ p = xy k (tile_centre tl) /\ (s = module_name m \/ s = tile_name t).
Proof.
  unfold inspect. intros H. apply bind_ok in H as (a & Ha & H). apply bind_ok in H as (k & Hk & H). apply bind_ok in H as (ts & Hts & H). apply Ok_inj in H. subst ax.
  apply base_inspect_ok in Ha as (k' & Hk' & A1 & A2 & A3 & A4 & A5 & A6). rewrite Hk in Hk'. apply Ok_inj in Hk'. subst k'.
  exists k. split; [exact Hk|]. cbn [ax_polygons ax_markers ax_segments ax_cross ax_x_inverted ax_label ax_texts ax_title]. repeat (split; [assumption || reflexivity|]). split.
  - intros m md Hm E. destruct (plot_mapM_in Hts (x := (m, md))) as (l & L1 & L2); [apply zenum_In; auto|].
    apply module_texts_ok in L2 as ((tl & T1 & T2) & _). exists (name_tile d), tl, (xy k (tile_centre tl)).
    split; [apply tile_at_intro with md; auto using name_tile_pos|]. split; [apply in_concat; eauto|reflexivity].
  - intros p s Hp. apply in_concat in Hp as (l & L1 & L2). destruct (plot_mapM_out Hts L1) as ((m & md) & M1 & M2). apply zenum_In in M1 as [M1 M3].
    apply module_texts_ok in M2 as (_ & M2). destruct (M2 p s L2) as (t & tl & T1 & T2 & T3 & T4). exists m, t, tl.
    split; [apply tile_at_intro with md; auto|]. auto.
Qed.

Lemma inspect_total d g fn units fv k : plot_scale d units = Ok k -> full d g -> exists ax, inspect d g fn units fv = Ok ax.
Proof.
  intros Hk F. unfold inspect. destruct (full_at (d := d) (g := g) (m := 0) (t := first_px_tile d - 1) F) as [tl Ht]; [lia|destruct d; cbn; lia|].
  destruct (base_inspect_total fv Hk (ex_intro _ 0 (ex_intro _ tl Ht))) as [ax ->]. cbn [bind]. rewrite Hk. cbn [bind].
  destruct (plot_mapM_total (f := module_texts d k) (l := zenum g)) as [ts ->]; [|cbn [bind]; eauto].
  intros [m md] Hm. apply zenum_In in Hm as [M1 M2]. destruct F as (_ & _ & F). pose proof (F md (nth_error_In _ _ M2)) as L.
  assert (C : forall t, 0 <= t < n_tiles d -> exists p, centre_of k md t = Ok p).
  { intros t Ht'. unfold centre_of. destruct (nth_error md (Z.to_nat t)) eqn:E; [eauto|]. apply nth_error_None in E. lia. }
  unfold module_texts. destruct (C (name_tile d)) as [p ->]; [destruct d; cbn; lia|]. cbn [bind].
  destruct (plot_mapM_total (f := fun t => let* c := centre_of k md t in Ok (c, ("T" ++ str_of_int (t + 1))%string)) (l := number_tiles d)) as [ts ->]; [|cbn [bind]; eauto].
  intros t Hin. apply number_tiles_pos in Hin. destruct (C t Hin) as [q ->]. cbn [bind]. eauto.
Qed.
Lemma inspect_units d g fn units fv : units <> "m"%string -> units <> "px"%string -> inspect d g fn units fv = Err EValueError.
Proof.
  intros A B. unfold inspect, base_inspect, plot_scale. apply String.eqb_neq in A. apply String.eqb_neq in B. rewrite A, B. reflexivity.
Qed.

(** All texts. *)
Lemma texts_exact d g fn units fv ax : inspect d g fn units fv = Ok ax -> exists k, plot_scale d units = Ok k /\
  forall p s, In (p, s) (ax_texts ax) <-> exists m t tl, tile_at g m t = Some tl /\ p = xy k (tile_centre tl) /\
    ((t = name_tile d /\ s = module_name m) \/ (In t (number_tiles d) /\ s = tile_name t)).
Proof.
  unfold inspect. intros H. apply bind_ok in H as (a & Ha & H). apply bind_ok in H as (k & Hk & H). apply bind_ok in H as (ts & Hts & H). apply Ok_inj in H. subst ax.
  exists k. split; [exact Hk|]. cbn [ax_texts]. intros p s. split.
  - intros Hp. apply in_concat in Hp as (l & L1 & L2). destruct (plot_mapM_out Hts L1) as ((m & md) & M1 & M2). apply zenum_In in M1 as [M1 M3].
    unfold module_texts in M2. apply bind_ok in M2 as (c & Hc & M2). apply bind_ok in M2 as (us & Hus & M2). apply Ok_inj in M2. subst l.
    destruct L2 as [X|X].
    + injection X as <- <-. apply centre_of_ok in Hc as (tl & E & ->). exists m, (name_tile d), tl. split; [apply tile_at_intro with md; auto using name_tile_pos|]. auto.
    + destruct (plot_mapM_out Hus X) as (t & T1 & T2). apply bind_ok in T2 as (c' & Hc' & T2). apply Ok_inj in T2. injection T2 as <- <-.
      apply centre_of_ok in Hc' as (tl' & E' & ->). exists m, t, tl'. split; [apply tile_at_intro with md; auto; apply number_tiles_pos in T1; lia|]. auto.
  - intros (m & t & tl & T & -> & X). apply tile_at_elim in T as (M0 & M1 & md & M2 & M3).
    destruct (plot_mapM_in Hts (x := (m, md))) as (l & L1 & L2); [apply zenum_In; auto|]. apply in_concat. exists l. split; [exact L1|].
    unfold module_texts in L2. apply bind_ok in L2 as (c & Hc & L2). apply bind_ok in L2 as (us & Hus & L2). apply Ok_inj in L2. subst l.
    destruct X as [[-> ->]|[X ->]].
    + left. apply centre_of_ok in Hc as (tl' & E & ->). rewrite M3 in E. injection E as <-. reflexivity.
    + right. destruct (plot_mapM_in Hus X) as (y & Y1 & Y2). apply bind_ok in Y2 as (c' & Hc' & Y2). apply Ok_inj in Y2. subst y.
      apply centre_of_ok in Hc' as (tl' & E & ->). rewrite M3 in E. injection E as <-. exact Y1.
Qed.
