(** C92, C93: plots of detector geometry. *)
From Coq Require Import QArith Qround Qabs Lqa.
From Verif Require Import Base M_Cxi M_Geom S_Geom M_Plot S_Plot L_Base L_Geom1 L_Geom2 L_Geom4 L_Geom5 L_Geom6 L_Plot L_Plot2 L_Cxi7 L_Crystfel P_Geom.
Local Open Scope Z_scope.
Local Open Scope list_scope.

(** ** C92: inspect *)

(** The name of module m on the plot, and of tile t. *)
Definition spec_module_name (m : Z) : string := ("Q" ++ str_of_int (m / 4 + 1) ++ "M" ++ str_of_int (m mod 4 + 1))%string.
Definition spec_tile_name (t : Z) : string := ("T" ++ str_of_int (t + 1))%string.

Theorem C92_inspect : forall d g fn units fv ax,
  (forall m t tl, tile_at g m t = Some tl -> 0 < t_ss_px tl /\ 0 < t_fs_px tl) ->
  inspect d g fn units fv = Ok ax -> exists k, per_metre d units k /\
  (* every tile is drawn, where it is, and nothing else *)
  List.length (ax_polygons ax) = List.length (List.concat g) /\
  (forall m t tl, tile_at g m t = Some tl -> exists poly, In poly (ax_polygons ax) /\ shows_tile k tl poly) /\
  (forall poly, In poly (ax_polygons ax) -> exists m t tl, tile_at g m t = Some tl /\ shows_tile k tl poly) /\
  (* names are in the middle of the tile they name, or of a tile of the module they name *)
  (forall m md, 0 <= m -> nth_error g (Z.to_nat m) = Some md -> exists p, In (p, spec_module_name m) (ax_texts ax)) /\
  (forall p s, In (p, s) (ax_texts ax) -> exists m t tl, tile_at g m t = Some tl /\
     drawn_at k tl ((1 # 2) * inject_Z (t_ss_px tl)) ((1 # 2) * inject_Z (t_fs_px tl)) p /\ (s = spec_module_name m \/ s = spec_tile_name t)) /\
  (* the first pixel and the first row of every module's data *)
  (forall m t tl, tile_at g m t = Some tl -> data_pixel d t 0 0 = (0, 0) -> 0 <= t < n_tiles d ->
     exists p q, In (p, q) (ax_segments ax) /\ drawn_at k tl 0 0 p /\ drawn_at k tl 0 (inject_Z (t_fs_px tl)) q) /\
  (forall p q, In (p, q) (ax_segments ax) -> exists m t tl, tile_at g m t = Some tl /\ data_pixel d t 0 0 = (0, 0) /\
     drawn_at k tl 0 0 p /\ drawn_at k tl 0 (inject_Z (t_fs_px tl)) q) /\
  ax_markers ax = map fst (ax_segments ax) /\
  (* a cross at the beam, x to the left when looking along the beam *)
  (exists c, (c == k * (1 # 50))%Q /\ ax_cross ax = [((- c, 0), (c, 0)); ((0, - c), (0, c))]%Q) /\
  ax_x_inverted ax = fv /\ (ax_label ax = "metres"%string <-> units = "m"%string).
Proof.
  intros d g fn units fv ax P H. apply inspect_ok in H as (k & Hk & A1 & A2 & A3 & A4 & A5 & A6 & _ & A7 & A8). exists k. split; [now apply plot_scale_spec|].
  rewrite A1, A2, A3, A4. split; [apply map_length|]. split; [|split; [|split; [|split; [|split; [|split; [|split; [reflexivity|split]]]]]]].
  - intros m t tl Ht. eexists. split; [apply in_map_iff; exists tl; split; [reflexivity|exact (canvas_tile Ht)]|]. destruct (P _ _ _ Ht). now apply polygon_shows.
  - intros poly Hp. apply in_map_iff in Hp as (tl & <- & Hp). destruct (in_tile_at Hp) as (m & t & Ht). exists m, t, tl. split; [exact Ht|].
    destruct (P _ _ _ Ht). now apply polygon_shows.
  - intros m md Hm E. destruct (A7 m md Hm E) as (t & tl & p & _ & X & _). exists p. exact X.
  - intros p s Hs. destruct (A8 p s Hs) as (m & t & tl & T & -> & X). exists m, t, tl. split; [exact T|]. split; [apply centre_drawn|exact X].
  - intros m t tl Ht D R. exists (fst (first_row k tl)), (snd (first_row k tl)). split; [|apply row_drawn]. rewrite <- surjective_pairing. apply rows_of_In.
    exists m, tl. split; [|reflexivity]. replace (first_px_tile d - 1) with t; [exact Ht|].
    destruct d; unfold data_pixel, n_tiles, first_px_tile in *; [| destruct (t <? 8) eqn:E |]; pose proof (f_equal fst D) as D1; pose proof (f_equal snd D) as D2; cbn [fst snd] in D1, D2; lia.
  - intros p q Hp. apply rows_of_In in Hp as (m & tl & Ht & E). exists m, (first_px_tile d - 1), tl. split; [exact Ht|]. split; [apply first_px_data|].
    pose proof (row_drawn k tl) as R. rewrite <- E in R. exact R.
  - exists ((2 # 100) * k)%Q. split; [ring|reflexivity].
  - split; [exact A5|]. rewrite A6. unfold axis_label. destruct (String.eqb units "m") eqn:E.
    + apply String.eqb_eq in E. split; auto.
    + apply String.eqb_neq in E. split; [discriminate|intros X; contradiction].
Qed.
Print Assumptions C92_inspect.

(** The labels: one tile of each module has the name of the module; the tiles at the ends, other than this one, have
    their own number.  There are no other labels, so that no tile has two. *)
Theorem C92_labels : forall d g fn units fv ax, full d g -> inspect d g fn units fv = Ok ax ->
  exists q k, 0 <= q < n_tiles d /\ per_metre d units k /\ (forall m t tl s, tile_at g m t = Some tl ->
    ((t = q /\ s = spec_module_name m) \/ (t <> q /\ end_tile d t /\ s = spec_tile_name t)) -> exists p, In (p, s) (ax_texts ax) /\
      drawn_at k tl ((1 # 2) * inject_Z (t_ss_px tl)) ((1 # 2) * inject_Z (t_fs_px tl)) p) /\
  (forall p s, In (p, s) (ax_texts ax) -> exists m t tl, tile_at g m t = Some tl /\
    ((t = q /\ s = spec_module_name m) \/ (t <> q /\ end_tile d t /\ s = spec_tile_name t)) /\
    drawn_at k tl ((1 # 2) * inject_Z (t_ss_px tl)) ((1 # 2) * inject_Z (t_fs_px tl)) p) /\
  exists about, ax_title ax = (about ++ " (" ++ fn ++ ")")%string.
Proof.
  intros d g fn units fv ax F H. pose proof H as H'. apply texts_exact in H as (k & Hk & A). exists (name_tile d), k. split; [destruct d; cbn; lia|]. split; [now apply plot_scale_spec|].
  assert (Q : forall m t tl s, tile_at g m t = Some tl ->
    ((t = name_tile d /\ s = spec_module_name m) \/ (t <> name_tile d /\ end_tile d t /\ s = spec_tile_name t)) <->
    ((t = name_tile d /\ s = module_name m) \/ (In t (number_tiles d) /\ s = tile_name t))).
  { intros m t tl s T. assert (R : 0 <= t < n_tiles d).
    { apply tile_at_elim in T as (M0 & M1 & md & M2 & M3). destruct F as (_ & _ & F). pose proof (F md (nth_error_In _ _ M2)) as L.
      assert (Z.to_nat t < List.length md)%nat by (apply nth_error_Some; congruence). lia. }
    assert (E : (t <> name_tile d /\ end_tile d t) <-> In t (number_tiles d)).
    { unfold end_tile. destruct d; cbn [name_tile number_tiles n_tiles In] in *; try lia; split; intros; Z.div_mod_to_equations; lia. }
    change (spec_module_name m) with (module_name m). change (spec_tile_name t) with (tile_name t). tauto. }
  split; [|split].
  - intros m t tl s T X. apply (Q m t tl s T) in X. exists (xy k (tile_centre tl)). split; [apply A; exists m, t, tl; auto|apply centre_drawn].
  - intros p s X. apply A in X as (m & t & tl & T & -> & X). exists m, t, tl. split; [exact T|]. split; [apply (Q m t tl s T); exact X|apply centre_drawn].
  - apply inspect_ok in H' as (k' & _ & _ & _ & _ & _ & _ & _ & T & _). exists (match d with AGIPD => "AGIPD-1M" | LPD => "LPD-1M" | DSSC => "DSSC" end ++ " detector geometry")%string.
    rewrite T. unfold plot_title. destruct d; reflexivity.
Qed.
Print Assumptions C92_labels.
Theorem C92_inspect_accepts : forall d g fn units fv, full d g -> (units = "m" \/ units = "px")%string ->
  exists ax, inspect d g fn units fv = Ok ax.
Proof. intros d g fn units fv F [->| ->]; eapply inspect_total; try exact F; reflexivity. Qed.
Print Assumptions C92_inspect_accepts.
Theorem C92_inspect_units : forall d g fn units fv, units <> "m"%string -> units <> "px"%string -> inspect d g fn units fv = Err EValueError.
Proof. intros. now apply inspect_units. Qed.
Print Assumptions C92_inspect_units.

(** No two modules have the same name. *)
Theorem C92_names : forall m m', 0 <= m -> 0 <= m' -> spec_module_name m = spec_module_name m' -> m = m'.
Proof.
  intros m m' Hm Hm' E. unfold spec_module_name in E. change (String "Q" (str_of_int (m / 4 + 1) ++ "M" ++ str_of_int (m mod 4 + 1)) = String "Q" (str_of_int (m' / 4 + 1) ++ "M" ++ str_of_int (m' mod 4 + 1)))%string in E.
  assert (E' := f_equal (fun s => match s with String _ r => r | EmptyString => EmptyString end) E). cbv beta iota in E'. clear E. rename E' into E.
  assert (B : 0 <= m / 4 /\ 0 <= m' / 4 /\ 0 <= m mod 4 /\ 0 <= m' mod 4) by (repeat split; try (apply Z.div_pos; lia); apply Z.mod_pos_bound; lia). destruct B as (B1 & B2 & B3 & B4).
  destruct (str_of_int_spec (z := m / 4 + 1)) as (D1 & _ & V1); [lia|]. destruct (str_of_int_spec (z := m' / 4 + 1)) as (D2 & _ & V2); [lia|].
  destruct (str_of_int_spec (z := m mod 4 + 1)) as (D3 & _ & V3); [lia|]. destruct (str_of_int_spec (z := m' mod 4 + 1)) as (D4 & _ & V4); [lia|].
  destruct (digits_sep (c := "M"%char) eq_refl D1 D2 E) as [X Y].
  assert (Q1 : m / 4 + 1 = m' / 4 + 1) by congruence. assert (Q2 : m mod 4 + 1 = m' mod 4 + 1) by congruence.
  pose proof (Z.div_mod m 4). pose proof (Z.div_mod m' 4). lia.
Qed.
Print Assumptions C92_names.

(** The AGIPD of C54's example is drawn with these names. *)
Definition plot_quads : list (Q * Q) := [(-525, 625); (-550, -10); (520, -160); (543, 475)]%Q.
Example C92_example : exists g, agipd_from_quad_positions plot_quads 2 29 (pixel_size AGIPD) = Ok g /\ full AGIPD g /\
  (forall m t tl, tile_at g m t = Some tl -> 0 < t_ss_px tl /\ 0 < t_fs_px tl) /\
  exists ax, inspect AGIPD g "geom.geom" "px" true = Ok ax /\ List.length (ax_texts ax) = 48%nat /\
    map snd (firstn 3 (ax_texts ax)) = ["Q1M1"; "T1"; "T8"]%string /\ ax_title ax = "AGIPD-1M detector geometry (geom.geom)"%string.
Proof.
  destruct (agipd_spec (qp := plot_quads) 2 29 (pixel_size AGIPD) eq_refl) as (g & E & F & _). exists g. split; [exact E|]. split; [exact F|]. split.
  { intros m t tl H. apply canvas_tile in H. apply in_concat in H. destruct H as (md & H1 & H2). destruct F as ((_ & FF) & _).
    destruct (FF md H1) as [_ FT]. destruct (FT tl H2) as [-> ->]. cbn. lia. }
  destruct (C92_inspect_accepts AGIPD g "geom.geom" "px" true F (or_intror eq_refl)) as [ax Hax]. exists ax. split; [exact Hax|].
  assert (X : inspect AGIPD (match agipd_from_quad_positions plot_quads 2 29 (pixel_size AGIPD) with Ok g => g | Err _ => [] end) "geom.geom" "px" true = Ok ax) by (rewrite E; exact Hax).
  clear Hax. unfold inspect in X. 
  assert (Y : option_map (fun l => (List.length l, map snd (firstn 3 l))) (match inspect AGIPD (match agipd_from_quad_positions plot_quads 2 29 (pixel_size AGIPD) with Ok g => g | Err _ => [] end) "geom.geom" "px" true with Ok a => Some (ax_texts a) | Err _ => None end)
     = Some (48%nat, ["Q1M1"; "T1"; "T8"]%string)) by (vm_compute; reflexivity).
  fold (inspect AGIPD (match agipd_from_quad_positions plot_quads 2 29 (pixel_size AGIPD) with Ok g => g | Err _ => [] end) "geom.geom" "px" true) in X. rewrite X in Y. cbn [option_map] in Y. injection Y as Y1 Y2.
  split; [exact Y1|]. split; [exact Y2|]. apply inspect_ok in X as (k & _ & _ & _ & _ & _ & _ & _ & T & _). exact T.
Qed.

(** ** C92: compare *)
Theorem C92_compare : forall axy g other scale c,
  (forall m t tl, tile_at g m t = Some tl -> 0 < t_ss_px tl /\ 0 < t_fs_px tl) ->
  compare axy g other scale = Ok c ->
  (forall m t tl, tile_at g m t = Some tl -> exists poly, In poly (cm_polygons c) /\ shows_tile 1 tl poly) /\
  (forall poly, In poly (cm_polygons c) -> exists m t tl, tile_at g m t = Some tl /\ shows_tile 1 tl poly) /\
  (forall m t tl tl' o, tile_at g m t = Some tl -> tile_at other m t = Some tl' -> moved (corner tl o) (corner tl' o) ->
     exists a, In a (cm_arrows c) /\ shows_move scale (corner tl o) (corner tl' o) a) /\
  (forall a, In a (cm_arrows c) -> exists m t tl tl' o, tile_at g m t = Some tl /\ tile_at other m t = Some tl' /\
     moved (corner tl o) (corner tl' o) /\ shows_move scale (corner tl o) (corner tl' o) a).
Proof.
  intros axy g other scale c P H. apply compare_ok in H as (A1 & A2 & A3 & A4 & _). rewrite A1. split; [|split; [|split]].
  - intros m t tl Ht. eexists. split; [apply in_map_iff; exists tl; split; [reflexivity|exact (canvas_tile Ht)]|]. destruct (P _ _ _ Ht). now apply polygon_shows.
  - intros poly Hp. apply in_map_iff in Hp as (tl & <- & Hp). destruct (in_tile_at Hp) as (m & t & Ht). exists m, t, tl. split; [exact Ht|].
    destruct (P _ _ _ Ht). now apply polygon_shows.
  - intros m t tl tl' o T1 T2 M. destruct (pts_of_corner tl o) as [X1 X2]. destruct (pts_of_corner tl' o) as [Y1 Y2]. cbn [fst snd] in X1, X2, Y1, Y2.
    eexists. split; [apply A2; exists m, t, tl, tl', o; split; [exact T1|]; split; [exact T2|]; apply corner_arrow_In; split; [|reflexivity]|].
    + intros [U V]. apply M. rewrite X1, Y1 in U. rewrite X2, Y2 in V. split; assumption.
    + unfold shows_move, peq. cbn [ar_from ar_by fst snd]. rewrite X1, X2, Y1, Y2. repeat split; reflexivity.
  - intros a Ha. apply A2 in Ha as (m & t & tl & tl' & o & T1 & T2 & Ha). apply corner_arrow_In in Ha as [N ->]. exists m, t, tl, tl', o. split; [exact T1|]. split; [exact T2|].
    destruct (pts_of_corner tl o) as [X1 X2]. destruct (pts_of_corner tl' o) as [Y1 Y2]. cbn [fst snd] in X1, X2, Y1, Y2. split.
    + intros [U V]. apply N. rewrite X1, Y1, X2, Y2. split; assumption.
    + unfold shows_move, peq. cbn [ar_from ar_by fst snd]. rewrite X1, X2, Y1, Y2. repeat split; reflexivity.
Qed.
Print Assumptions C92_compare.

Theorem C92_compare_outcome : forall axy g other scale,
  (List.concat g <> [] -> (forall m t tl, tile_at g m t = Some tl -> exists tl', tile_at other m t = Some tl') -> exists c, compare axy g other scale = Ok c) /\
  (forall m t tl, tile_at g m t = Some tl -> tile_at other m t = None -> compare axy g other scale = Err EIndexError).
Proof. intros axy g other scale. split; [exact (@compare_total axy g other scale)|exact (@compare_missing axy g other scale)]. Qed.
Print Assumptions C92_compare_outcome.

(** The margins are those of a plot in pixels, but the plot is in metres: a detector
    of up to a metre is a speck of a fortieth of the width and height, or less. *)
Theorem C92_compare_size_refuted : forall axy g other scale c, compare axy g other scale = Ok c ->
  forall poly poly' p q, In poly (cm_polygons c) -> In poly' (cm_polygons c) -> In p poly -> In q poly' ->
  (fst p - fst q <= 1 -> 40 * (fst p - fst q) <= snd (cm_xlim c) - fst (cm_xlim c))%Q /\
  (snd p - snd q <= 1 -> 40 * (snd p - snd q) <= snd (cm_ylim c) - fst (cm_ylim c))%Q.
Proof.
  intros axy g other scale c H poly poly' p q H1 H2 H3 H4. apply compare_ok in H as (_ & _ & _ & _ & L & _).
  destruct (L p poly H1 H3) as (A & B & C & D). destruct (L q poly' H2 H4) as (A' & B' & C' & D'). split; intros; lra.
Qed.
Print Assumptions C92_compare_size_refuted.

(** inspect() shows x increasing to the left, compare() to the right. *)
Theorem C92_compare_view_refuted : forall axy d g other scale c fn units ax, compare axy g other scale = Ok c -> inspect d g fn units true = Ok ax ->
  (fst (cm_xlim c) < snd (cm_xlim c))%Q /\ ax_x_inverted ax = true.
Proof.
  intros axy d g other scale c fn units ax H I. apply compare_ok in H as (_ & _ & _ & _ & _ & _ & L). apply inspect_ok in I as (k & _ & _ & _ & _ & _ & V & _). split; [lra|exact V].
Qed.
Print Assumptions C92_compare_view_refuted.

Example C92_compare_example : exists g g', agipd_from_quad_positions plot_quads 2 29 (pixel_size AGIPD) = Ok g /\
  agipd_from_quad_positions plot_quads 2 30 (pixel_size AGIPD) = Ok g' /\
  exists c, compare (fun a => [ar_from a]) g g' 10 = Ok c /\ List.length (cm_arrows c) = 192%nat /\
    (snd (cm_xlim c) - fst (cm_xlim c) <= 41)%Q.
Proof.
  destruct (agipd_spec (qp := plot_quads) 2 29 (pixel_size AGIPD) eq_refl) as (g & E & F & _). destruct (agipd_spec (qp := plot_quads) 2 30 (pixel_size AGIPD) eq_refl) as (g' & E' & F' & _).
  exists g, g'. split; [exact E|]. split; [exact E'|].
  assert (X : match agipd_from_quad_positions plot_quads 2 29 (pixel_size AGIPD), agipd_from_quad_positions plot_quads 2 30 (pixel_size AGIPD) with
    | Ok g, Ok g' => match compare (fun a => [ar_from a]) g g' 10 with Ok c => (List.length (cm_arrows c), Qle_bool (snd (cm_xlim c) - fst (cm_xlim c)) 41) | Err _ => (0%nat, false) end
    | _, _ => (0%nat, false) end = (192%nat, true)) by (vm_compute; reflexivity).
  rewrite E, E' in X. destruct (compare (fun a => [ar_from a]) g g' 10) as [c|]; [|discriminate]. exists c. injection X as X1 X2. apply Qle_bool_iff in X2. auto.
Qed.

(** ** C93: plot_data_fast *)
(** A plot of one frame: the middle of every cell of the pixel grid shows the pixel
    which is there and nothing else, and whatever is shown belongs to a cell at
    most one pixel away. *)
Theorem C93_plot : forall A rs d g (nan : A) data units k fv, fits d g -> snappable (pixel_shape rs d) g -> List.concat g <> [] -> per_pixel d units k ->
  exists p, plot_data_fast nan rs d g [] (16, mod_ss d, mod_fs d) data units fv None None = Ok p /\
  (forall m t s f y x, seen (pixel_shape rs d) d g m t s f y x ->
     forall v, shows p (mid k x) (mid k y) v <-> v = data m (fst (data_pixel d t s f)) (snd (data_pixel d t s f))) /\
  (forall X Y v, shows p X Y v -> exists y x, (Qabs (X - mid k x) <= k)%Q /\ (Qabs (Y - mid k y) <= k)%Q /\
     ((exists m t s f, seen (pixel_shape rs d) d g m t s f y x /\ v = data m (fst (data_pixel d t s f)) (snd (data_pixel d t s f))) \/
      ((forall m t s f, ~ covers (pixel_shape rs d) d g m t s f y x) /\ v = nan))) /\
  dp_x_inverted p = fv /\ dp_cross p = [((- (20 * k), 0), (20 * k, 0)); ((0, - (20 * k)), (0, 20 * k))]%Q.
Proof.
  intros A rs d g nan data units k fv F S N U. pose proof (per_pixel_pos U) as Kp. destruct (unit_px_spec U) as [Uk Ub].
  destruct (plot_ok nan data fv F S N Ub) as (H & W & cy & cx & img & p & E1 & E2 & E3 & P1 & P2 & P3 & P4 & P5 & P6 & _). rewrite Uk in P3, P6.
  destruct (@assemble_spec A rs d g F S N) as (H' & W' & cy' & cx' & Es & B & _ & _ & _ & _ & K). rewrite E2 in Es. apply Ok_inj in Es. injection Es as <- <-.
  destruct (K nan data None) as (img' & E' & V); [discriminate|]. change (n_modules d) with 16 in E'. rewrite E1 in E'. apply Ok_inj in E'. injection E' as <- <- <-.
  exists p. split; [exact E3|]. split; [|split; [|split; [exact P5|exact P6]]].
  - intros m t s f y x [C L] v. destruct (B m t s f y x C) as [By Bx].
    assert (Vv : img (y + cy) (x + cx) = data m (fst (data_pixel d t s f)) (snd (data_pixel d t s f))).
    { specialize (V (y + cy) (x + cx)). rewrite !Z.add_simpl_r in V. destruct V as [(m' & t' & s' & f' & C' & L' & ->)|[X _]]; [|exfalso; exact (X _ _ _ _ C)].
      assert (EQ : m' = m /\ t' = t).
      { destruct (L' _ _ _ _ C) as [[<- <-]|Q1]; [auto|]. destruct (L _ _ _ _ C') as [X|Q2]; [exact X|]. exfalso. unfold after in Q1, Q2. lia. }
      destruct EQ as [-> ->]. destruct C as (tl & o & T1 & T2 & T3 & T4). destruct C' as (tl' & o' & T1' & T2' & T3' & T4'). rewrite T1 in T1'. injection T1' as <-.
      apply snaps_unique in T3. apply snaps_unique in T3'. subst o o'. rewrite <- T4' in T4.
      destruct (cell_inj (snappable_rounded S T1) T4) as [-> ->]. reflexivity. }
    unfold shows. rewrite P1, P2, P3, P4. split.
    + intros (i & j & C' & <-). apply default_cell in C' as (I & J & CX & CY).
      assert (j = x + cx) by (apply (@inside_unique k W cx (x + cx) j (mid k x)); auto; [lia|now apply mid_inside]).
      assert (i = y + cy) by (apply (@inside_unique k H cy (y + cy) i (mid k y)); auto; [lia|now apply mid_inside]). subst. exact Vv.
    + intros ->. exists (y + cy), (x + cx). split; [|exact Vv]. apply default_cell. split; [exact By|]. split; [exact Bx|].
      destruct (mid_inside Bx Kp). destruct (mid_inside By Kp). repeat split; apply Qlt_le_weak; assumption.
  - intros X Y v (i & j & C & Hv). rewrite P1 in Hv. rewrite P2, P3, P4 in C. apply default_cell in C as (I & J & CX & CY).
    exists (i - cy), (j - cx). split; [now apply (inside_close (n := W))|]. split; [now apply (inside_close (n := H))|].
    destruct (V i j) as [(m & t & s & f & C & L & Q1)|[Nn Q1]]; [left|right].
    + exists m, t, s, f. split; [split; assumption|congruence].
    + split; [exact Nn|]. cbn in Q1. congruence.
Qed.
Print Assumptions C93_plot.

(** Tiles of AGIPD and LPD are where inspect() shows them, up to one pixel. *)
Theorem C93_overlay : forall A rs d g (nan : A) data units k km fv m t tl y x P p, d <> DSSC -> fits d g -> snappable (pixel_shape rs d) g ->
  per_pixel d units k -> per_metre d units km -> tile_at g m t = Some tl -> seen (pixel_shape rs d) d g m t 0 0 y x ->
  plot_data_fast nan rs d g [] (16, mod_ss d, mod_fs d) data units fv None None = Ok p -> drawn_at km tl 0 0 P ->
  exists X Y, shows p X Y (data m (fst (data_pixel d t 0 0)) (snd (data_pixel d t 0 0))) /\ (Qabs (X - fst P) <= k)%Q /\ (Qabs (Y - snd P) <= k)%Q.
Proof.
  intros A rs d g nan data units k km fv m t tl y x P p Hd F S U Um Ht Hs Hp HP.
  assert (N : List.concat g <> []) by (intros X; apply canvas_tile in Ht; rewrite X in Ht; destruct Ht).
  destruct (C93_plot A rs d g nan data units k fv F S N U) as (p' & E & V & _). rewrite Hp in E. apply Ok_inj in E. subst p'.
  exists (mid k x), (mid k y). split; [apply (V m t 0 0 y x Hs); reflexivity|].
  destruct Hs as [(tl' & o & T1 & _ & T3 & T4) _]. rewrite Ht in T1. injection T1 as <-. pose proof (snappable_rounded S Ht) as Al. rewrite <- (snaps_unique T3) in Al.
  destruct T3 as ([Nx _] & [Ny _] & _). destruct (px_square rs Hd) as [Sx Sy]. unfold nearest in Nx, Ny. rewrite Sx in Nx. rewrite Sy in Ny.
  assert (Kk : (km * pixel_size d == k)%Q).
  { destruct U as [[-> ->]|[-> ->]], Um as [[E Q]|[E Q]]; try discriminate; rewrite ?Q; try ring; exact Q. }
  assert (Ps : (0 < pixel_size d)%Q) by (destruct d; reflexivity). pose proof (per_pixel_pos U) as Kp.
  destruct HP as [H1 H2]. cbn [fst snd point vx vy] in H1, H2.
  unfold cell in T4. apply pair_equal_spec in T4 as [Cy Cx].
  assert (G : forall (v : Q) (c b z : Z), (Qabs (v / pixel_size d - inject_Z c) <= 1 # 2)%Q -> (b = -1 \/ b = 0) -> c + b = z -> (Qabs (mid k z - km * v) <= k)%Q).
  { intros v c b z Hv Hb Hz. set (u := (v / pixel_size d)%Q) in *. assert (Vu : (v == u * pixel_size d)%Q) by (unfold u; field; lra).
    assert (Q1 : (km * v == u * k)%Q) by (rewrite Vu, <- Kk; ring). rewrite Q1. apply Qabs_Qle_condition in Hv as [L R].
    assert (Hzc : (inject_Z z == inject_Z c + inject_Z b)%Q) by (rewrite <- Hz, inject_Z_plus; reflexivity). unfold mid. rewrite Hzc.
    assert (M1 : (0 <= (u - inject_Z c + (1 # 2)) * k)%Q) by (apply Qmult_le_0_compat; lra). assert (M2 : (0 <= ((1 # 2) - u + inject_Z c) * k)%Q) by (apply Qmult_le_0_compat; lra).
    ring_simplify in M1. ring_simplify in M2.
    apply Qabs_case; intros _; destruct Hb as [-> | ->]; [change (inject_Z (-1)) with (-1)%Q|change (inject_Z 0) with 0%Q|change (inject_Z (-1)) with (-1)%Q|change (inject_Z 0) with 0%Q]; ring_simplify; lra. }
  assert (Bx : Z.min 0 (snd (og_ss o) + snd (og_fs o)) = -1 \/ Z.min 0 (snd (og_ss o) + snd (og_fs o)) = 0) by (unfold aligned in Al; lia).
  assert (By : Z.min 0 (fst (og_ss o) + fst (og_fs o)) = -1 \/ Z.min 0 (fst (og_ss o) + fst (og_fs o)) = 0) by (unfold aligned in Al; lia).
  split.
  - rewrite H1. assert (Q1 : (km * (vx (t_corner tl) + 0 * vx (t_ss tl) + 0 * vx (t_fs tl)) == km * vx (t_corner tl))%Q) by ring. rewrite Q1.
    apply (G _ _ _ x Nx Bx). lia.
  - rewrite H2. assert (Q1 : (km * (vy (t_corner tl) + 0 * vy (t_ss tl) + 0 * vy (t_fs tl)) == km * vy (t_corner tl))%Q) by ring. rewrite Q1.
    apply (G _ _ _ y Ny By). lia.
Qed.
Print Assumptions C93_overlay.

(** Every plot is a pixel wider and higher than its image: at the left (and likewise
    at the other sides) pixels are shown outside the cell they are in. *)
Theorem C93_half_pixel_refuted : forall A rs d g (nan : A) data units k fv p, fits d g -> snappable (pixel_shape rs d) g -> List.concat g <> [] -> per_pixel d units k ->
  plot_data_fast nan rs d g [] (16, mod_ss d, mod_fs d) data units fv None None = Ok p ->
  exists m t s f y x, seen (pixel_shape rs d) d g m t s f y x /\
    (forall m' t' s' f' y' x', covers (pixel_shape rs d) d g m' t' s' f' y' x' -> x <= x') /\
    shows p ((inject_Z x - (1 # 4)) * k)%Q (mid k y) (data m (fst (data_pixel d t s f)) (snd (data_pixel d t s f))).
Proof.
  intros A rs d g nan data units k fv p F S N U Hp. pose proof (per_pixel_pos U) as Kp. destruct (unit_px_spec U) as [Uk Ub].
  destruct (plot_ok nan data fv F S N Ub) as (H & W & cy & cx & img & p' & E1 & E2 & E3 & P1 & P2 & P3 & P4 & _). rewrite Hp in E3. apply Ok_inj in E3. subst p'. rewrite Uk in P3.
  destruct (@assemble_spec A rs d g F S N) as (H' & W' & cy' & cx' & Es & B & _ & Lft & _ & _ & K). rewrite E2 in Es. apply Ok_inj in Es. injection Es as <- <-.
  destruct (K nan data None) as (img' & E' & V); [discriminate|]. change (n_modules d) with 16 in E'. rewrite E1 in E'. apply Ok_inj in E'. injection E' as <- <- <-.
  destruct Lft as (m0 & t0 & s0 & f0 & y & C0). destruct (B _ _ _ _ _ _ C0) as [By Bx].
  specialize (V (y + cy) (- cx + cx)). rewrite !Z.add_simpl_r in V. destruct V as [(m & t & s & f & C & L & Vv)|[X _]]; [|exfalso; exact (X _ _ _ _ C0)].
  exists m, t, s, f, y, (- cx). split; [split; assumption|]. split.
  - intros m' t' s' f' y' x' C'. destruct (B _ _ _ _ _ _ C') as [_ X]. lia.
  - unfold shows. rewrite P1, P2, P3, P4. exists (y + cy), (- cx + cx). split; [|exact Vv]. apply default_cell. split; [exact By|]. split; [exact Bx|].
    destruct (mid_inside By Kp). destruct (@mid_inside k W cx (- cx) Bx Kp) as [_ M]. split; [|split; apply Qlt_le_weak; assumption].
    rewrite Z.add_opp_diag_l in *. split.
    + unfold edge. change (inject_Z 0) with 0%Q. unfold Qdiv. ring_simplify. nra.
    + apply Qlt_le_weak. eapply Qlt_trans; [|exact M]. unfold mid. nra.
Qed.
Print Assumptions C93_half_pixel_refuted.

(** For DSSC the rows of the image are drawn one pixel size apart, but on the detector
    and in inspect() they are closer: away from the centre a plot of data
    which tells pixels apart shows no pixel where inspect() shows it. *)
Theorem C93_overlay_dssc_refuted : forall A rs g (nan : A) data units k km fv m t tl y x P p, (0 < rs <= 87 # 100)%Q -> fits DSSC g -> snappable (pixel_shape rs DSSC) g ->
  per_pixel DSSC units k -> per_metre DSSC units km -> tile_at g m t = Some tl -> seen (pixel_shape rs DSSC) DSSC g m t 0 0 y x ->
  (forall a b c a' b' c', data a b c = data a' b' c' -> a = a' /\ b = b' /\ c = c') -> (forall a b c, data a b c <> nan) ->
  plot_data_fast nan rs DSSC g [] (16, mod_ss DSSC, mod_fs DSSC) data units fv None None = Ok p -> drawn_at km tl 0 0 P -> 100 <= Z.abs y ->
  forall X Y, shows p X Y (data m (fst (data_pixel DSSC t 0 0)) (snd (data_pixel DSSC t 0 0))) -> (10 * k < Qabs (Y - snd P))%Q.
Proof.
  intros A rs g nan data units k km fv m t tl y x P p [Rp Rs] F S U Um Ht Hs Inj Nn Hp HP Hy X Y Sh.
  assert (N : List.concat g <> []) by (intros E; apply canvas_tile in Ht; rewrite E in Ht; destruct Ht).
  destruct (C93_plot A rs DSSC g nan data units k fv F S N U) as (p' & E & _ & V & _). rewrite Hp in E. apply Ok_inj in E. subst p'.
  destruct (V X Y _ Sh) as (y' & x' & _ & DY & [(m' & t' & s' & f' & Hs' & Q1)|[_ Q1]]); [|exfalso; exact (Nn _ _ _ Q1)].
  destruct Hs as [(tl1 & o & T1 & T2 & T3 & T4) _]. rewrite Ht in T1. injection T1 as <-.
  destruct Hs' as [(tl2 & o' & T1' & T2' & T3' & T4') _]. apply Inj in Q1 as (<- & Qs & Qf). cbn [data_pixel fst snd] in Qs, Qf. unfold in_tile in T2'. cbn in T2'.
  assert (t' = t /\ f' = 0) as [-> ->] by lia. subst s'. rewrite Ht in T1'. injection T1' as <-.
  pose proof (snappable_rounded S Ht) as Al. rewrite <- (snaps_unique T3) in Al. apply snaps_unique in T3' as E2. pose proof (snaps_unique T3) as E3. rewrite <- E3 in E2. subst o'.
  rewrite T4 in T4'. injection T4' as <- <-.
  destruct T3 as (_ & [Ny _] & _). unfold nearest in Ny. cbn [pixel_shape snd] in Ny.
  assert (Kk : (km * pixel_size DSSC == k)%Q).
  { destruct U as [[-> ->]|[-> ->]], Um as [[E Q]|[E Q]]; try discriminate; rewrite ?Q; try ring; exact Q. }
  assert (Ps : (0 < pixel_size DSSC)%Q) by reflexivity. pose proof (per_pixel_pos U) as Kp.
  destruct HP as [_ H2]. cbn [fst snd point vx vy] in H2. rewrite H2.
  assert (Q1 : (km * (vy (t_corner tl) + 0 * vy (t_ss tl) + 0 * vy (t_fs tl)) == km * vy (t_corner tl))%Q) by ring. rewrite Q1.
  set (u := (vy (t_corner tl) / (rs * pixel_size DSSC))%Q) in *.
  assert (Vu : (vy (t_corner tl) == u * rs * pixel_size DSSC)%Q) by (unfold u; field; lra).
  assert (Q2 : (km * vy (t_corner tl) == u * rs * k)%Q) by (rewrite Vu, <- Kk; ring). rewrite Q2.
  assert (By : Z.min 0 (fst (og_ss o) + fst (og_fs o)) = -1 \/ Z.min 0 (fst (og_ss o) + fst (og_fs o)) = 0) by (unfold aligned in Al; lia).
  unfold cell in T4. apply pair_equal_spec in T4 as [Cy _].
  assert (Hc : fst (og_corner o) = y \/ fst (og_corner o) = y + 1) by lia. set (c := fst (og_corner o)) in *.
  apply Qabs_Qle_condition in Ny as [L R]. apply Qabs_Qle_condition in DY as [LY RY].
  assert (Bu : (inject_Z y - (1 # 2) <= u <= inject_Z y + (3 # 2))%Q).
  { destruct Hc as [Hc|Hc]; rewrite Hc in L, R; [|rewrite inject_Z_plus in L, R; change (inject_Z 1) with 1%Q in L, R]; lra. }
  unfold mid in LY, RY. clearbody u.
  assert (Sg : (100 <= inject_Z y)%Q \/ (inject_Z y <= -100)%Q).
  { destruct (Z.abs_spec y) as [[_ Ea]|[_ Ea]]; [left; change 100%Q with (inject_Z 100)|right; change (-100)%Q with (inject_Z (-100))]; rewrite <- Zle_Qle; lia. }
  destruct Bu as [B1 B2]. set (q := inject_Z y) in *. clearbody q.
  destruct Sg as [Sg|Sg].
  - assert (M1 : (u * rs <= (87 # 100) * (q + (3 # 2)))%Q) by nra.
    assert (M2 : (u * rs * k <= (87 # 100) * (q + (3 # 2)) * k)%Q) by (apply Qmult_le_compat_r; lra).
    assert (M3 : (100 * k <= q * k)%Q) by (apply Qmult_le_compat_r; lra).
    eapply Qlt_le_trans; [|apply Qle_Qabs]. ring_simplify in M2. ring_simplify in LY. lra.
  - assert (M1 : ((87 # 100) * (q - (1 # 2)) <= u * rs)%Q) by nra.
    assert (M2 : ((87 # 100) * (q - (1 # 2)) * k <= u * rs * k)%Q) by (apply Qmult_le_compat_r; lra).
    assert (M3 : (q * k <= -100 * k)%Q) by (apply Qmult_le_compat_r; lra).
    rewrite <- Qabs_opp. eapply Qlt_le_trans; [|apply Qle_Qabs]. ring_simplify in M2. ring_simplify in RY. lra.
Qed.
Print Assumptions C93_overlay_dssc_refuted.

(** What is refused. *)
Theorem C93_refused : forall A rs d g (nan : A) extra shape data units fv extent lower, fits d g -> snappable (pixel_shape rs d) g -> List.concat g <> [] ->
  (units <> "px"%string -> units <> "m"%string -> plot_data_fast nan rs d g extra shape data units fv extent lower = Err EValueError) /\
  (units = "px"%string \/ units = "m"%string ->
   (shape <> (16, mod_ss d, mod_fs d) -> plot_data_fast nan rs d g extra shape data units fv extent lower = Err EAssertionError) /\
   (shape = (16, mod_ss d, mod_fs d) -> extra <> [] -> plot_data_fast nan rs d g extra shape data units fv extent lower = Err EValueError)).
Proof.
  intros A rs d g nan extra shape data units fv extent lower F S N. destruct (C50_refused A rs d g nan data F S N) as [R _].
  destruct (@assemble_spec A rs d g F S N) as (H & W & cy & cx & Es & _ & _ & _ & _ & _ & K). destruct (K nan data None) as (img & E & _); [discriminate|]. change (n_modules d) with 16 in E.
  specialize (R shape None). unfold output_shape in Es. unfold position_modules_fast in R, E. unfold plot_data_fast. destruct (snap_geometry rs d g) as [sn|]; [|discriminate]. cbn [bind] in *. split.
  - intros N1 N2. apply String.eqb_neq in N1, N2. rewrite N1, N2. reflexivity.
  - intros U. assert (Ub : (String.eqb units "px" || String.eqb units "m")%bool = true) by (destruct U as [-> | ->]; reflexivity). rewrite Ub. cbn [negb]. split.
    + intros Ns. rewrite (R Ns). reflexivity.
    + intros -> Ne. rewrite E. cbn [bind]. destruct extra; [contradiction|reflexivity].
Qed.
Print Assumptions C93_refused.

(** Keyword arguments for imshow replace only what they name; labels say which
    units were asked for; DSSC plots are squashed to 204/236. *)
Theorem C93_options : forall A rs d g (nan : A) shape data units fv extent lower p,
  plot_data_fast nan rs d g [] shape data units fv None None = Ok p ->
  exists q, plot_data_fast nan rs d g [] shape data units fv extent lower = Ok q /\
    dp_image q = dp_image p /\ dp_size q = dp_size p /\ dp_x_inverted q = dp_x_inverted p /\ dp_cross q = dp_cross p /\
    (forall x, extent = Some x -> dp_extent q = x) /\ (extent = None -> dp_extent q = dp_extent p) /\
    (forall b, lower = Some b -> dp_lower q = b) /\ (lower = None -> dp_lower q = true) /\
    (units = "px"%string -> dp_label q = "pixels"%string) /\ (units = "m"%string -> dp_label q = "metres"%string) /\
    (d = DSSC -> dp_aspect q = Some (204 # 236)) /\ (d <> DSSC -> dp_aspect q = None).
Proof.
  intros A rs d g nan shape data units fv extent lower p H. unfold plot_data_fast in *.
  destruct (snap_geometry rs d g) as [sn|]; [|discriminate]. cbn [bind] in *. destruct (negb _); [discriminate|].
  destruct (position_modules nan d sn shape data None) as [[img [cy cx]]|]; [|discriminate]. cbn [bind] in *. destruct (sn_size sn) as [h w]. apply Ok_inj in H. subst p.
  eexists. split; [reflexivity|]. cbn [dp_image dp_size dp_extent dp_lower dp_x_inverted dp_cross dp_label dp_aspect]. unfold axis_label.
  repeat split; intros; subst; try reflexivity. destruct d; congruence || reflexivity.
Qed.
Print Assumptions C93_options.

(** One DSSC tile 150 rows above the centre, and an AGIPD detector. *)
Definition plot_rs : Q := 866 # 1000.
Definition plot_dssc : geometry := [[mk_tile (mk_vec 0 (150 * (plot_rs * pixel_size DSSC)) 0) (mk_vec 0 (plot_rs * pixel_size DSSC) 0) (mk_vec (pixel_size DSSC) 0 0) 128 256]].
Example C93_dssc_example : (0 < plot_rs <= 87 # 100)%Q /\ fits DSSC plot_dssc /\ snappable (pixel_shape plot_rs DSSC) plot_dssc /\ List.concat plot_dssc <> [] /\
  (exists tl, tile_at plot_dssc 0 0 = Some tl) /\ seen (pixel_shape plot_rs DSSC) DSSC plot_dssc 0 0 0 0 150 0 /\
  (forall a b c a' b' c', Some (a, b, c) = Some (a', b', c') :> option (Z * Z * Z) -> a = a' /\ b = b' /\ c = c') /\ (forall a b c, Some (a, b, c) <> None :> option (Z * Z * Z)).
Proof.
  assert (T : forall m t tl, tile_at plot_dssc m t = Some tl -> m = 0 /\ t = 0 /\ tl = mk_tile (mk_vec 0 (150 * (plot_rs * pixel_size DSSC)) 0) (mk_vec 0 (plot_rs * pixel_size DSSC) 0) (mk_vec (pixel_size DSSC) 0 0) 128 256).
  { intros m t tl H. unfold tile_at in H. destruct ((0 <=? m) && (0 <=? t)) eqn:B; [|discriminate]. apply andb_true_iff in B as [B1 B2]. apply Z.leb_le in B1, B2.
    destruct (Z.to_nat m) as [|n] eqn:Em; [|destruct n; discriminate]. cbn [nth_error plot_dssc] in H. destruct (Z.to_nat t) as [|n] eqn:Et; [|destruct n; discriminate].
    cbn [nth_error] in H. injection H as <-. repeat split; lia. }
  assert (O : snaps_to (pixel_shape plot_rs DSSC) (mk_tile (mk_vec 0 (150 * (plot_rs * pixel_size DSSC)) 0) (mk_vec 0 (plot_rs * pixel_size DSSC) 0) (mk_vec (pixel_size DSSC) 0 0) 128 256) (mk_on (150, 0) (1, 0) (0, 1))).
  { unfold snaps_to, half_even, nearest. cbn [t_corner t_ss t_fs vx vy og_corner og_ss og_fs fst snd pixel_shape]. repeat split; try discriminate; intros X; vm_compute in X; discriminate X. }
  split; [split; [reflexivity|discriminate]|]. split; [|split; [|split; [discriminate|split; [eexists; reflexivity|split; [|split; [intros a b c a' b' c' E; injection E; auto|discriminate]]]]]].
  - split; [discriminate|]. intros md [<-|[]]. split; [discriminate|]. intros tl [<-|[]]. split; reflexivity.
  - intros m t tl H. apply T in H as (_ & _ & ->). eexists. split; [exact O|]. right. repeat split; reflexivity.
  - split.
    + eexists _, _. split; [reflexivity|]. split; [split; cbn; lia|]. split; [exact O|]. reflexivity.
    + intros m' t' s' f' (tl & o & H & _). apply T in H as (-> & -> & _). left. split; reflexivity.
Qed.

Example C93_example : exists g, agipd_from_quad_positions plot_quads 2 29 (pixel_size AGIPD) = Ok g /\ fits AGIPD g /\ snappable (pixel_shape 1 AGIPD) g /\ List.concat g <> [] /\
  per_pixel AGIPD "m" (pixel_size AGIPD) /\ per_metre AGIPD "m" 1 /\ AGIPD <> DSSC.
Proof.
  destruct (agipd_spec (qp := plot_quads) 2 29 (pixel_size AGIPD) eq_refl) as (g & E & F & _). exists g. split; [exact E|]. split; [exact (proj1 F)|].
  split; [exact (@agipd_px_snappable 1 plot_quads 2 29 g eq_refl E)|]. split; [|split; [right; auto|split; [left; split; reflexivity|discriminate]]].
  intros X. assert (L : match agipd_from_quad_positions plot_quads 2 29 (pixel_size AGIPD) with Ok g => List.length (List.concat g) | Err _ => 0%nat end = 128%nat) by (vm_compute; reflexivity).
  rewrite E, X in L. discriminate L.
Qed.
