(** Properties of detector geometry: C48-C54, C69-C71. *)

From Coq Require Import QArith Qround.
From Verif Require Import Base L_Base PyStr M_Cxi M_Geom S_Geom L_Geom1 L_Geom2 L_Geom3 L_Geom4 L_Geom5 L_Geom6
  M_Crystfel S_Crystfel L_Crystfel L_Crystfel2.

Local Open Scope string_scope.
Local Open Scope Z_scope.
Local Open Scope list_scope.

(** ** C48: tiles partition each module *)

(** Every pixel of a module's data belongs to exactly one tile, as exactly one of
    its pixels. *)
Theorem C48_partition : forall d ss fs, in_module d ss fs ->
  exists t s f, (0 <= t < n_tiles d /\ in_tile d s f /\ data_pixel d t s f = (ss, fs)) /\
  forall t' s' f', 0 <= t' < n_tiles d -> in_tile d s' f' -> data_pixel d t' s' f' = (ss, fs) -> t' = t /\ s' = s /\ f' = f.
Proof.
  intros d ss fs H. destruct (data_pixel_onto H) as (t & s & f & Ht & Hi & E). exists t, s, f. split; [auto|].
  intros t' s' f' Ht' Hi' E'. apply (@data_pixel_inj d); auto. congruence.
Qed.
Print Assumptions C48_partition.

Theorem C48_inside : forall d t s f, 0 <= t < n_tiles d -> in_tile d s f ->
  in_module d (fst (data_pixel d t s f)) (snd (data_pixel d t s f)).
Proof. exact data_pixel_in. Qed.
Print Assumptions C48_inside.

(** The slice of a tile holds exactly the tile's pixels. *)
Theorem C48_slices : forall d t ss fs, 0 <= t < n_tiles d ->
  let '((s0, s1), (f0, f1)) := tile_slice d t in
  (s0 <= ss < s1 /\ f0 <= fs < f1 <-> exists s f, in_tile d s f /\ data_pixel d t s f = (ss, fs)).
Proof.
  intros d t ss fs Ht. pose proof (@tile_slice_spec d t ss fs Ht) as A. pose proof (fun s f => @tile_slice_pixel d t s f Ht) as B.
  destruct (tile_slice d t) as [[s0 s1] [f0 f1]]. unfold in_slice in *. cbn [fst snd] in *. split.
  - intros [Hs Hf]. destruct A as [A1 A2]; [rewrite !andb_true_iff, !Z.leb_le, !Z.ltb_lt; lia|]. exists (ss - s0), (fs - f0). auto.
  - intros (s & f & Hi & E). specialize (B s f Hi). rewrite E in B. destruct B as [B _]. rewrite !andb_true_iff, !Z.leb_le, !Z.ltb_lt in B. lia.
Qed.
Print Assumptions C48_slices.

(** Splitting a module's data gives one array per tile, with its pixels' data. *)
Theorem C48_split : forall A d (a : Z -> Z -> A), Z.of_nat (List.length (split_tiles d a)) = n_tiles d /\
  forall t b, 0 <= t -> nth_error (split_tiles d a) (Z.to_nat t) = Some b ->
  forall s f, b s f = a (fst (data_pixel d t s f)) (snd (data_pixel d t s f)).
Proof. intros A d a. split; [apply split_tiles_length|]. intros t b Ht H. exact (split_tiles_spec H Ht). Qed.
Print Assumptions C48_split.

Example C48_example : in_module LPD 200 30 /\ data_pixel LPD 1 8 30 = (200, 30) /\ tile_slice LPD 1 = ((192, 224), (0, 128)).
Proof. vm_compute. repeat split; congruence. Qed.

(** ** C49: positions of pixels *)

(** get_pixel_positions gives the first corner of each pixel (centre=False) ... *)
Theorem C49_corners : forall d g, fits d g -> exists pos, get_pixel_positions d g false = Ok pos /\
  (forall m t tl s f, tile_at g m t = Some tl -> in_tile d s f ->
     veq (pos m (fst (data_pixel d t s f)) (snd (data_pixel d t s f))) (point tl (fst (pixel_origin d s f)) (snd (pixel_origin d s f)))) /\
  forall m ss fs, in_module d ss fs ->
    (forall t s f, data_pixel d t s f = (ss, fs) -> in_tile d s f -> 0 <= t < n_tiles d -> tile_at g m t = None) -> pos m ss fs = vzero.
Proof.
  intros d g H. destruct (positions_spec false H) as (pos & E & A & B). exists pos. split; [exact E|]. split; [|exact B].
  intros m t tl s f Ht Hi. rewrite (A m t tl s f Ht Hi). eapply veq_trans; [apply point_tile_point|].
  destruct (@adjust_corner d s f) as [E1 E2]; [destruct Hi; lia|]. unfold veq, point. cbn [vx vy vz]. rewrite E1, E2. repeat split; reflexivity.
Qed.
Print Assumptions C49_corners.

(** ... or its centre (centre=True): the mean of the pixel's corners. *)
Theorem C49_centres : forall d g, fits d g -> exists pos, get_pixel_positions d g true = Ok pos /\
  forall m t tl s f, tile_at g m t = Some tl -> in_tile d s f ->
    veq (vmul (inject_Z (Z.of_nat (List.length (outline d)))) (pos m (fst (data_pixel d t s f)) (snd (data_pixel d t s f))))
        (vsum (map (corner_point d tl s f) (outline d))).
Proof.
  intros d g H. destruct (positions_spec true H) as (pos & E & A & _). exists pos. split; [exact E|].
  intros m t tl s f Ht Hi. rewrite (A m t tl s f Ht Hi). eapply veq_trans; [|apply centre_mean].
  destruct (@adjust_centre d s f) as [E1 E2]; [destruct Hi; lia|]. unfold veq, vmul, tile_point, vadd, point, vmul. cbn [vx vy vz]. rewrite E1, E2. repeat split; ring.
Qed.
Print Assumptions C49_centres.

(** data_coords_to_positions: a point of a pixel, at any fraction along it, is at
    the corresponding point of the tile. *)
Theorem C49_coordinates : forall d g m t tl s f u w, d <> DSSC -> full d g -> tile_at g m t = Some tl -> in_tile d s f ->
  (0 <= u < 1)%Q -> (0 <= w < 1)%Q ->
  exists v, data_coords_to_position d g m (inject_Z (fst (data_pixel d t s f)) + u) (inject_Z (snd (data_pixel d t s f)) + w) = Ok v /\
  veq v (point tl (inject_Z s + u) (inject_Z f + w)).
Proof.
  intros d g m t tl s f u w Hd Hg Ht Hi Hu Hw. destruct (fits_at (proj1 Hg) Ht) as (Hm & Htt & _).
  assert (Fl : forall z q, (0 <= q < 1)%Q -> Qfloor (inject_Z z + q) = z).
  { intros z q [H0 H1]. symmetry. pose proof (Qfloor_le (inject_Z z + q)) as A. pose proof (Qlt_floor (inject_Z z + q)) as B.
    assert (X : (inject_Z (Qfloor (inject_Z z + q)) < inject_Z (z + 1))%Q) by (rewrite inject_Z_plus; change (inject_Z 1) with 1%Q; Lqa.lra).
    assert (Y : (inject_Z z < inject_Z (Qfloor (inject_Z z + q) + 1))%Q) by Lqa.lra.
    rewrite <- Zlt_Qlt in X, Y. lia. }
  pose proof (data_pixel_in Htt Hi) as Hin.
  destruct (data_pixel d t s f) as [a b] eqn:E. cbn [fst snd] in *.
  destruct (@coords_spec d g m (inject_Z a + u) (inject_Z b + w) Hd Hg Hm) as (t' & s' & f' & tl' & v & Ht' & Hi' & E' & Htl' & Ev & Vv).
  { rewrite !Fl by assumption. exact Hin. }
  rewrite !Fl in E' by assumption. rewrite !Fl in Vv by assumption.
  destruct (@data_pixel_inj d t s f t' s' f' Htt Hi Ht' Hi') as (-> & -> & ->); [congruence|]. rewrite Ht in Htl'. injection Htl' as <-.
  exists v. split; [exact Ev|]. eapply veq_trans; [exact Vv|]. unfold veq, point. cbn [vx vy vz]. repeat split; ring.
Qed.
Print Assumptions C49_coordinates.

(** The two agree on the corners and centres of pixels. *)
Theorem C49_agree : forall d g (centre : bool), d <> DSSC -> full d g -> exists pos, get_pixel_positions d g centre = Ok pos /\
  forall m ss fs, 0 <= m < 16 -> in_module d ss fs ->
    let h := if centre then (1 # 2)%Q else 0%Q in
    exists v, data_coords_to_position d g m (inject_Z ss + h) (inject_Z fs + h) = Ok v /\ veq v (pos m ss fs).
Proof.
  intros d g c Hd Hg. destruct (positions_spec c (proj1 Hg)) as (pos & E & A & _). exists pos. split; [exact E|].
  intros m ss fs Hm Hin h. destruct (data_pixel_onto Hin) as (t & s & f & Ht & Hi & Ed).
  destruct (full_at Hg Hm Ht) as [tl Htl].
  assert (Hh : (0 <= h < 1)%Q) by (unfold h; destruct c; split; vm_compute; congruence).
  destruct (C49_coordinates d g m t tl s f h h Hd Hg Htl Hi Hh Hh) as (v & Ev & Vv). rewrite Ed in Ev. cbn [fst snd] in Ev.
  exists v. split; [exact Ev|]. eapply veq_trans; [exact Vv|]. specialize (A m t tl s f Htl Hi). rewrite Ed in A. cbn [fst snd] in A. rewrite A.
  apply veq_sym. eapply veq_trans; [apply point_tile_point|].
  unfold h, veq, point. destruct d, c; try congruence; cbn [adjust_pixel fst snd vx vy vz]; repeat split; ring.
Qed.
Print Assumptions C49_agree.

Theorem C49_dssc_not_implemented : forall g m ss fs, List.concat g <> [] ->
  data_coords_to_position DSSC g m ss fs = Err ENotImplementedError.
Proof. intros g m ss fs H. unfold data_coords_to_position. destruct (List.concat g); [congruence|reflexivity]. Qed.
Print Assumptions C49_dssc_not_implemented.

(** One past the last row of a module, which is the far edge of its last tile, is
    not refused: the answer is the first edge of the next module. *)
Theorem C49_far_edge_refuted : forall g m tl f, full AGIPD g -> 0 <= m < 15 -> tile_at g (m + 1) 0 = Some tl ->
  exists v, data_coords_to_position AGIPD g m (inject_Z 512) f = Ok v /\ veq v (point tl 0 f).
Proof.
  intros g m tl f Hg Hm Ht. pose proof (full_index Hg Ht) as Hx. unfold data_coords_to_position.
  destruct (List.concat g) as [|x xs] eqn:E.
  { exfalso. cbn [n_tiles] in Hx. unfold py_index in Hx. repeat match type of Hx with context [if ?b then _ else _] => destruct b end;
      try discriminate Hx; destruct (Z.to_nat _) in Hx; discriminate Hx. }
  cbn [module_coords_to_tile divmodq frag_ss bind n_tiles] in *.
  assert (F8 : Qfloor (inject_Z 512 / inject_Z 64) = 8) by reflexivity. rewrite F8.
  replace (m * 8 + 8) with ((m + 1) * 8 + 0) by lia. rewrite Hx. cbn [bind].
  eexists. split; [reflexivity|]. eapply veq_trans; [apply point_tile_point|]. unfold veq, point. cbn [vx vy vz]. change (inject_Z 512) with 512%Q. change (inject_Z 64) with 64%Q. change (inject_Z 8) with 8%Q.
  repeat split; ring.
Qed.
Print Assumptions C49_far_edge_refuted.

(** Quadrant positions used in the project's documentation. *)
Definition ex_quads : list (Q * Q) := [(-525, 625); (-550, -10); (520, -160); (542 # 1, 475)]%Q.

Example C49_example : exists g, agipd_from_quad_positions ex_quads 2 29 (pixel_size AGIPD) = Ok g /\ full AGIPD g /\ AGIPD <> DSSC /\
  in_module AGIPD 511 127.
Proof.
  destruct (@agipd_spec ex_quads 2 29 (pixel_size AGIPD) eq_refl) as (g & E & F & _). exists g. split; [exact E|]. split; [exact F|].
  split; [discriminate|]. vm_compute. repeat split; congruence.
Qed.

(** ** C50: assembling images *)

(** For a geometry whose tiles are aligned with the axes after rounding: the image
    is just large enough for all pixels, each pixel's cell is inside it; a cell
    holds the value of the last tile with a pixel there, and a cell without pixels
    the fill value (or what the given output array held). *)
Theorem C50_assembled : forall A rs d g, fits d g -> snappable (pixel_shape rs d) g -> List.concat g <> [] ->
  exists H W cy cx, output_shape rs d g = Ok (H, W) /\
  (forall m t s f y x, covers (pixel_shape rs d) d g m t s f y x -> 0 <= y + cy < H /\ 0 <= x + cx < W) /\
  (exists m t s f x, covers (pixel_shape rs d) d g m t s f (- cy) x) /\
  (exists m t s f y, covers (pixel_shape rs d) d g m t s f y (- cx)) /\
  (exists m t s f x, covers (pixel_shape rs d) d g m t s f (H - 1 - cy) x) /\
  (exists m t s f y, covers (pixel_shape rs d) d g m t s f y (W - 1 - cx)) /\
  forall (nan : A) (data : Z -> Z -> Z -> A) (out : option (out_arr A)),
   (forall o, out = Some o -> oa_shape o = (H, W) /\ oa_cast o = true) ->
   exists img, position_modules_fast nan rs d g (16, mod_ss d, mod_fs d) data out = Ok (img, (cy, cx)) /\
   forall y x,
     (exists m t s f, covers (pixel_shape rs d) d g m t s f (y - cy) (x - cx) /\
        (forall m' t' s' f', covers (pixel_shape rs d) d g m' t' s' f' (y - cy) (x - cx) -> (m' = m /\ t' = t) \/ after m t m' t') /\
        img y x = data m (fst (data_pixel d t s f)) (snd (data_pixel d t s f))) \/
     ((forall m t s f, ~ covers (pixel_shape rs d) d g m t s f (y - cy) (x - cx)) /\ img y x = o_start nan out y x).
Proof. intros A rs d g H1 H2 H3. exact (@assemble_spec A rs d g H1 H2 H3). Qed.
Print Assumptions C50_assembled.

(** Without overlaps every pixel is at its cell. *)
Theorem C50_every_pixel : forall A rs d g (nan : A) data img cy cx, fits d g -> snappable (pixel_shape rs d) g ->
  position_modules_fast nan rs d g (16, mod_ss d, mod_fs d) data None = Ok (img, (cy, cx)) ->
  forall m t s f y x, covers (pixel_shape rs d) d g m t s f y x ->
  (forall m' t' s' f', covers (pixel_shape rs d) d g m' t' s' f' y x -> m' = m /\ t' = t /\ s' = s /\ f' = f) ->
  img (y + cy) (x + cx) = data m (fst (data_pixel d t s f)) (snd (data_pixel d t s f)).
Proof.
  intros A rs d g nan data img cy cx H1 H2 E m t s f y x Hc Hu.
  assert (H3 : List.concat g <> []).
  { intros X. destruct Hc as (tl & o & Ht & _). unfold tile_at in Ht. destruct ((0 <=? m) && (0 <=? t)); [|discriminate].
    destruct (nth_error g (Z.to_nat m)) as [md|] eqn:Em; [|discriminate].
    assert (I : In tl (List.concat g)) by (apply in_concat; exists md; split; [eapply nth_error_In; exact Em|eapply nth_error_In; exact Ht]).
    rewrite X in I. exact I. }
  destruct (@assemble_spec A rs d g H1 H2 H3) as (H & W & cy' & cx' & _ & _ & _ & _ & _ & _ & K).
  destruct (K nan data None) as (img' & E' & V); [discriminate|].
  change (position_modules_fast nan rs d g (n_modules d, mod_ss d, mod_fs d) data None) with (position_modules_fast nan rs d g (16, mod_ss d, mod_fs d) data None) in E'.
  rewrite E in E'. injection E' as <- <- <-.
  specialize (V (y + cy) (x + cx)). rewrite !Z.add_simpl_r in V. destruct V as [(m' & t' & s' & f' & C & _ & I)|[N _]].
  - destruct (Hu m' t' s' f' C) as (-> & -> & -> & ->). exact I.
  - exfalso. exact (N m t s f Hc).
Qed.
Print Assumptions C50_every_pixel.

(** A tile that is not aligned with the axes is refused, and so are data of another
    shape, an output array of another shape and one of a type the data cannot be
    cast to; the shape is compared before the type. *)
Theorem C50_not_aligned : forall A rs d g (nan : A) shape data out m t tl, tile_at g m t = Some tl ->
  (forall o, snaps_to (pixel_shape rs d) tl o -> ~ aligned o) ->
  position_modules_fast nan rs d g shape data out = Err EAssertionError.
Proof. intros A rs d g nan shape data out m t tl Ht H. unfold position_modules_fast. rewrite (not_snappable Ht H). reflexivity. Qed.
Print Assumptions C50_not_aligned.

Theorem C50_refused : forall A rs d g (nan : A) data, fits d g -> snappable (pixel_shape rs d) g -> List.concat g <> [] ->
  (forall shape out, shape <> (16, mod_ss d, mod_fs d) -> position_modules_fast nan rs d g shape data out = Err EAssertionError) /\
  exists hw, output_shape rs d g = Ok hw /\
  (forall o, oa_shape o <> hw -> position_modules_fast nan rs d g (16, mod_ss d, mod_fs d) data (Some o) = Err EAssertionError) /\
  (forall o, oa_shape o = hw -> oa_cast o = false -> position_modules_fast nan rs d g (16, mod_ss d, mod_fs d) data (Some o) = Err ETypeError).
Proof.
  intros A rs d g nan data H1 H2 H3. destruct (@assemble_spec A rs d g H1 H2 H3) as (H & W & cy & cx & Es & _).
  unfold output_shape in Es. destruct (snap_geometry rs d g) as [sn|] eqn:E; [|discriminate]. cbn [bind] in Es. injection Es as Es.
  unfold position_modules_fast, output_shape. rewrite E. cbn [bind]. split.
  - intros [[n a] b] out Hs. unfold position_modules. destruct ((n =? n_modules d) && (a =? mod_ss d) && (b =? mod_fs d)) eqn:C; [|reflexivity].
    exfalso. apply Hs. rewrite !andb_true_iff, !Z.eqb_eq in C. destruct C as [[-> ->] ->]. reflexivity.
  - exists (sn_size sn). split; [reflexivity|].
    assert (P : forall o, position_modules nan d sn (16, mod_ss d, mod_fs d) data (Some o) =
      if negb (pair_eqb (oa_shape o) (sn_size sn)) then Err EAssertionError else if negb (oa_cast o) then Err ETypeError
      else position_modules nan d sn (16, mod_ss d, mod_fs d) data (Some o)).
    { intros o. unfold position_modules. change (16 =? n_modules d) with true. rewrite !Z.eqb_refl. cbn [andb negb].
      destruct (pair_eqb (oa_shape o) (sn_size sn)); [|reflexivity]. destruct (oa_cast o); reflexivity. }
    assert (Pe : forall a b, pair_eqb a b = true <-> a = b).
    { intros [a b] [a' b']. unfold pair_eqb. cbn [fst snd]. rewrite andb_true_iff, !Z.eqb_eq. split; [intros [-> ->]; reflexivity|intros X; injection X; auto]. }
    split.
    + intros o Ho. rewrite P. destruct (pair_eqb (oa_shape o) (sn_size sn)) eqn:X; [|reflexivity]. apply Pe in X. contradiction.
    + intros o Ho Hc. rewrite P. apply Pe in Ho. rewrite Ho, Hc. reflexivity.
Qed.
Print Assumptions C50_refused.

Example C50_example : exists g, agipd_from_quad_positions ex_quads 2 29 (pixel_size AGIPD) = Ok g /\
  fits AGIPD g /\ snappable (pixel_shape 1 AGIPD) g /\ List.concat g <> [] /\ output_shape 1 AGIPD g = Ok (1256, 1092).
Proof.
  eexists. split; [vm_compute; reflexivity|]. split; [|split; [|split]].
  - destruct (@agipd_spec ex_quads 2 29 (pixel_size AGIPD) eq_refl) as (g & E & F & _).
    assert (X : Ok g = Ok g) by reflexivity. rewrite <- E in X at 2. vm_compute in X. injection X as ->. exact (proj1 F).
  - apply (@agipd_px_snappable 1 ex_quads 2 29 _ eq_refl). vm_compute. reflexivity.
  - discriminate.
  - vm_compute. reflexivity.
Qed.

(** ** C51: distortion arrays *)

Theorem C51_corners : forall d g allow, fits d g -> exists a dy dx, to_distortion_array d g allow = Ok a /\
  (forall m t tl s f n o, tile_at g m t = Some tl -> in_tile d s f -> nth_error (outline d) n = Some o ->
     let v := corner_point d tl s f o in
     teq (a (m * mod_ss d + fst (data_pixel d t s f)) (snd (data_pixel d t s f)) n) (vz v, vy v - dy, vx v - dx)%Q) /\
  (allow = true -> dy = 0%Q /\ dx = 0%Q) /\
  (allow = false ->
     (forall r c n, in_array d r c n -> (0 <= d_y (a r c n) /\ 0 <= d_x (a r c n))%Q) /\
     (exists r c n, in_array d r c n /\ (d_y (a r c n) == 0)%Q) /\
     (exists r c n, in_array d r c n /\ (d_x (a r c n) == 0)%Q)).
Proof. exact distortion_spec. Qed.
Print Assumptions C51_corners.

(** The outlines of neighbouring pixels of a tile meet: they share the corners of
    the edge between them. *)
Theorem C51_neighbours : forall d t s f k ds df k' o o', In (k, (ds, df), k') (shared d s) ->
  nth_error (outline d) k = Some o -> nth_error (outline d) k' = Some o' ->
  veq (corner_point d t s f o) (corner_point d t (s + ds) (f + df) o').
Proof. exact shared_corners. Qed.
Print Assumptions C51_neighbours.

Example C51_example : fits DSSC [[mk_tile (mk_vec 1 2 0) (mk_vec 0 (1 # 5000) 0) (mk_vec (1 # 5000) 0 0) 128 256]] /\
  in_tile DSSC 127 255 /\ nth_error (outline DSSC) 3 = Some (4 # 3, 1 # 2)%Q /\ In (3%nat, (1, -1), 1%nat) (shared DSSC 5).
Proof.
  split; [|vm_compute; intuition congruence].
  split; [cbn; lia|]. intros md [<-|[]]. split; [cbn; lia|]. intros tl [<-|[]]. auto.
Qed.

(** ** C52: CrystFEL files *)

(** Writing a geometry and reading the file back gives the same geometry. *)
Theorem C52_round_trip : forall d g dims args, full d g -> In DFrame dims ->
  exists f g', write_crystfel d g dims args = Ok f /\ from_crystfel d f = Ok g' /\ same_geometry g g'.
Proof. intros d g dims args H1 H2. exact (@crystfel_inverse d g dims args H1 H2). Qed.
Print Assumptions C52_round_trip.

(** Without a frame dimension nothing is written. *)
Theorem C52_frame_needed : forall d g dims args, ~ In DFrame dims -> write_crystfel d g dims args = Err EValueError.
Proof. intros d g dims args H. unfold write_crystfel. apply no_frame in H. rewrite H. reflexivity. Qed.
Print Assumptions C52_frame_needed.

(** ** C71: panels of CrystFEL files point at their tiles' data *)

(** The panel of a tile describes the rows and columns of the tile's pixels; if
    there is no module dimension, modules are taken to follow each other along slow
    scan.  No line is contradicted by another one. *)
Theorem C71_panel_data : forall d g dims args f m t tl, fits d g -> write_crystfel d g dims args = Ok f -> tile_at g m t = Some tl ->
  exists a b, panel_line f (panel_name m t) "min_ss" (CInt a) /\ panel_line f (panel_name m t) "max_ss" (CInt (a + frag_ss d - 1)) /\
    panel_line f (panel_name m t) "min_fs" (CInt b) /\ panel_line f (panel_name m t) "max_fs" (CInt (b + frag_fs d - 1)) /\
    forall s fs, in_tile d s fs -> data_pixel d t s fs = (a + s - (if existsb is_modno dims then 0 else m * mod_ss d), b + fs).
Proof. intros d g dims args f m t tl H1 H2 H3. exact (panel_data H1 H2 H3). Qed.
Print Assumptions C71_panel_data.

(** Each dimension except the frame's is given for each panel: the module's number
    for 'modno', else as in the argument. *)
Theorem C71_panel_dims : forall d g dims args f m t tl n x, write_crystfel d g dims args = Ok f -> tile_at g m t = Some tl ->
  0 <= n -> nth_error dims (Z.to_nat n) = Some x -> x <> DFrame ->
  panel_line f (panel_name m t) ("dim" ++ str_of_int n)%string
    (match x with DModno => CInt m | DSs => CText "ss" | DFs => CText "fs" | DIndex z => CInt z | DFrame => CText "frame" end).
Proof. intros d g dims args f m t tl n x H1 H2 H3 H4 H5. exact (panel_dims H1 H2 H3 H4 H5). Qed.
Print Assumptions C71_panel_dims.

Theorem C71_consistent : forall d g dims args f m t tl k v v', write_crystfel d g dims args = Ok f -> tile_at g m t = Some tl ->
  panel_line f (panel_name m t) k v -> panel_line f (panel_name m t) k v' -> v = v'.
Proof. intros d g dims args f m t tl k v v' H1 H2 H3 H4. exact (panel_line_fun H1 H2 H3 H4). Qed.
Print Assumptions C71_consistent.

(** Different tiles have different panel names, and the names are as documented. *)
Theorem C71_names : forall p a, 0 <= p -> 0 <= a -> names_panel (panel_name p a) p a /\
  forall p' a', names_panel (panel_name p a) p' a' -> p' = p /\ a' = a.
Proof.
  intros p a Hp Ha. split; [apply panel_name_names; assumption|]. intros p' a' H.
  destruct (names_unique (panel_name_names Hp Ha) H) as [-> ->]. auto.
Qed.
Print Assumptions C71_names.

Definition ex_cf_args : cf_args := mk_cf_args "/entry_1/data" (Some "/entry_1/mask") None (Some (1 # 5)) None.
Example C52_example : exists g f, agipd_from_quad_positions ex_quads 2 29 (pixel_size AGIPD) = Ok g /\ full AGIPD g /\
  In DFrame [DFrame; DModno; DSs; DFs] /\ write_crystfel AGIPD g [DFrame; DModno; DSs; DFs] ex_cf_args = Ok f /\
  panel_line f "p15a7" "min_ss" (CInt 448) /\ panel_line f "p15a7" "dim1" (CInt 15) /\
  In ("rigid_group_p1", CText "p1a0,p1a1,p1a2,p1a3,p1a4,p1a5,p1a6,p1a7") f.
Proof.
  destruct (@agipd_spec ex_quads 2 29 (pixel_size AGIPD) eq_refl) as (g & E & F & _).
  destruct (@full_at AGIPD g 15 7 F) as [tl Htl]; [lia|cbn; lia|].
  assert (HF : In DFrame [DFrame; DModno; DSs; DFs]) by (left; reflexivity).
  destruct (@write_shape AGIPD g [DFrame; DModno; DSs; DFs] ex_cf_args HF) as (gr & fr & Hg & _ & _ & Ef).
  exists g. eexists. split; [exact E|]. split; [exact F|]. split; [exact HF|]. split; [exact Ef|]. repeat split.
  - apply (panel_line_iff "min_ss" (CInt 448) Ef Htl). vm_compute. tauto.
  - apply (panel_line_iff "dim1" (CInt 15) Ef Htl). vm_compute. tauto.
  - apply in_or_app. left. vm_compute in Hg. injection Hg as <-. vm_compute. tauto.
Qed.

(** ** C53: rigid groups *)

(** Every panel is in exactly one quadrant group. *)
Theorem C53_quadrants : forall nm nt nq f p a, get_rigid_groups nm nt nq = Ok f -> 0 <= p < nm -> 0 <= a < nt ->
  exists k, 0 <= k < nq /\ in_group f (group_name "q" k) (panel_name p a) /\
  forall k', 0 <= k' -> in_group f (group_name "q" k') (panel_name p a) -> k' = k.
Proof. intros nm nt nq f p a H1 H2 H3. exact (rigid_quadrant H1 H2 H3). Qed.
Print Assumptions C53_quadrants.

(** If the modules can be divided evenly, the groups consist of whole modules. *)
Theorem C53_quadrant_modules : forall nm nt nq f p a k, get_rigid_groups nm nt nq = Ok f -> 0 <= p < nm -> 0 <= a < nt -> 0 <= k ->
  nm mod nq = 0 -> (in_group f (group_name "q" k) (panel_name p a) <-> p / (nm / nq) = k).
Proof. intros nm nt nq f p a k H1 H2 H3 H4 H5. exact (rigid_whole H1 H2 H3 H4 H5). Qed.
Print Assumptions C53_quadrant_modules.

(** The group of a module has exactly the panels of the module. *)
Theorem C53_modules : forall nm nt nq f p a k, get_rigid_groups nm nt nq = Ok f -> 0 <= p < nm -> 0 <= a < nt -> 0 <= k ->
  (in_group f (group_name "p" k) (panel_name p a) <-> p = k).
Proof. intros nm nt nq f p a k H1 H2 H3 H4. exact (rigid_module H1 H2 H3 H4). Qed.
Print Assumptions C53_modules.

Theorem C53_only_panels : forall nm nt nq f pre k x, get_rigid_groups nm nt nq = Ok f -> 0 <= k -> pre = "q" \/ pre = "p" -> x <> "" ->
  in_group f (group_name pre k) x -> exists p a, 0 <= p < nm /\ 0 <= a < nt /\ x = panel_name p a.
Proof. intros nm nt nq f pre k x H1 H2 H3 H4 H5. exact (rigid_only H1 H2 H3 H4 H5). Qed.
Print Assumptions C53_only_panels.

Theorem C53_total : forall nm nt nq, 0 < nm -> 0 < nq -> exists f, get_rigid_groups nm nt nq = Ok f.
Proof. exact rigid_ok. Qed.
Print Assumptions C53_total.

Example C53_example : exists f, get_rigid_groups 6 2 4 = Ok f /\
  In (group_name "q" 1, CText "p1a1,p2a0,p2a1") f /\ In (group_name "p" 5, CText "p5a0,p5a1") f /\ In ("rigid_group_collection_quadrants", CText "q0,q1,q2,q3") f.
Proof. eexists. split; [vm_compute; reflexivity|]. vm_compute. tauto. Qed.

(** ** C54: quadrant positions *)

(** AGIPD: the first corner of the first tile of the first module of each quadrant
    is at the given position; the other tiles follow along x and the modules
    downwards along y, with the given gaps. *)
Theorem C54_agipd_corners : forall qp ag pg unit, List.length qp = 4%nat ->
  exists g, agipd_from_quad_positions qp ag pg unit = Ok g /\ full AGIPD g /\
  forall m t tl, tile_at g m t = Some tl -> exists q, nth_error qp (Z.to_nat (m / 4)) = Some q /\
    veq (t_corner tl) (mk_vec (fst q * unit + inject_Z (q_dir m) * inject_Z t * (64 * pixel_size AGIPD + ag * unit))
                              (snd q * unit - inject_Z (m mod 4) * (128 * pixel_size AGIPD + pg * unit)) 0)%Q.
Proof.
  intros qp ag pg unit L. destruct (agipd_spec ag pg unit L) as (g & E & F & S). exists g. split; [exact E|]. split; [exact F|].
  intros m t tl H. destruct (S m t tl H) as (q & Hq & C & _). eauto.
Qed.
Print Assumptions C54_agipd_corners.

(** With positions in pixels (the default) the steps are one pixel, the tiles are
    aligned and, unless gaps are negative, tiles of a quadrant do not overlap. *)
Theorem C54_agipd_pixels : forall rs qp ag pg g, List.length qp = 4%nat -> agipd_from_quad_positions qp ag pg (pixel_size AGIPD) = Ok g ->
  (forall m t tl, tile_at g m t = Some tl ->
     veq (t_ss tl) (mk_vec (inject_Z (q_dir m) * pixel_size AGIPD) 0 0)%Q /\ veq (t_fs tl) (mk_vec 0 (- inject_Z (q_dir m) * pixel_size AGIPD) 0)%Q) /\
  snappable (pixel_shape rs AGIPD) g /\
  ((0 <= ag)%Q -> (0 <= pg)%Q -> forall m t s f m' t' s' f' y x, m / 4 = m' / 4 ->
     covers (pixel_shape rs AGIPD) AGIPD g m t s f y x -> covers (pixel_shape rs AGIPD) AGIPD g m' t' s' f' y x -> m = m' /\ t = t' /\ s = s' /\ f = f').
Proof.
  intros rs qp ag pg g L E. split; [|split].
  - intros m t tl H. destruct (agipd_spec ag pg (pixel_size AGIPD) L) as (g' & E' & _ & S). rewrite E in E'. injection E' as <-.
    destruct (S m t tl H) as (q & _ & _ & A & B). auto.
  - exact (@agipd_px_snappable rs qp ag pg g L E).
  - exact (@agipd_no_overlap rs qp ag pg g L E).
Qed.
Print Assumptions C54_agipd_pixels.

(** With positions in another unit the steps are one unit, not one pixel. *)
Theorem C54_agipd_unit_refuted : forall qp ag pg, List.length qp = 4%nat ->
  exists g, agipd_from_quad_positions qp ag pg (1 # 1000) = Ok g /\
  (forall m t tl, tile_at g m t = Some tl -> ~ veq (t_ss tl) (mk_vec (inject_Z (q_dir m) * pixel_size AGIPD) 0 0)%Q) /\
  forall A rs (nan : A) shape data out, position_modules_fast nan rs AGIPD g shape data out = Err EAssertionError.
Proof.
  intros qp ag pg L. destruct (agipd_spec ag pg (1 # 1000) L) as (g & E & F & S). exists g. split; [exact E|]. split.
  - intros m t tl H V. destruct (S m t tl H) as (q & _ & _ & (A & _) & _). destruct V as [V _]. cbn [vx] in *. rewrite A in V.
    destruct (q_dir_cases m) as [D|D]; rewrite D in V; vm_compute in V; discriminate.
  - intros A rs nan shape data out. unfold position_modules_fast. rewrite (agipd_units rs L E). reflexivity.
Qed.
Print Assumptions C54_agipd_unit_refuted.

(** LPD: the corner of each quadrant at the highest x and y, which is the last
    corner of the last tile of its fourth module, is at the given position. *)
Theorem C54_lpd : forall qp unit ag pg, List.length qp = 4%nat ->
  exists g, lpd_from_quad_positions qp unit ag pg = Ok g /\ full LPD g /\
  forall m t tl, tile_at g m t = Some tl -> exists q, nth_error qp (Z.to_nat (m / 4)) = Some q /\
    veq (t_corner tl)
      (mk_vec (fst q * unit + inject_Z (panel_across m) * (256 * pixel_size LPD + gap_m unit ag + gap_m unit pg)
                 + inject_Z (tile_across t) * (128 * pixel_size LPD + gap_m unit ag) - 128 * pixel_size LPD)
              (snd q * unit + inject_Z (panel_up m) * (256 * pixel_size LPD + 7 * gap_m unit ag + gap_m unit pg)
                 + inject_Z (tile_up t) * (32 * pixel_size LPD + gap_m unit ag) - 32 * pixel_size LPD) 0)%Q /\
    veq (t_ss tl) (mk_vec 0 (pixel_size LPD) 0) /\ veq (t_fs tl) (mk_vec (pixel_size LPD) 0 0) /\
    (m mod 4 = 3 -> t = 15 -> veq (point tl 32 128) (mk_vec (fst q * unit) (snd q * unit) 0)%Q).
Proof.
  intros qp unit ag pg L. destruct (lpd_spec unit ag pg L) as (g & E & F & S). exists g. split; [exact E|]. split; [exact F|].
  intros m t tl H. destruct (S m t tl H) as (q & Hq & C & A & B). exists q. repeat (split; [assumption|]).
  intros Hm ->. unfold panel_across, panel_up in C. rewrite Hm in C. cbn [tile_across tile_up Z.ltb Z.compare Pos.compare Pos.compare_cont Z.eqb Pos.eqb orb] in C.
  destruct C as (C1 & C2 & C3), A as (A1 & A2 & A3), B as (B1 & B2 & B3). unfold veq, point. cbn [vx vy vz] in *.
  rewrite C1, C2, C3, A1, A2, A3, B1, B2, B3. cbn. repeat split; ring.
Qed.
Print Assumptions C54_lpd.

(** Its tiles are aligned and, unless gaps are negative, those of a quadrant do not
    overlap. *)
Theorem C54_lpd_grid : forall rs qp unit ag pg g, List.length qp = 4%nat -> lpd_from_quad_positions qp unit ag pg = Ok g ->
  snappable (pixel_shape rs LPD) g /\
  ((0 <= gap_m unit ag)%Q -> (0 <= gap_m unit pg)%Q -> forall m t s f m' t' s' f' y x, m / 4 = m' / 4 ->
     covers (pixel_shape rs LPD) LPD g m t s f y x -> covers (pixel_shape rs LPD) LPD g m' t' s' f' y x -> m = m' /\ t = t' /\ s = s' /\ f = f').
Proof. intros rs qp unit ag pg g L E. split; [apply (@lpd_snappable rs qp unit ag pg g L E)|apply (@lpd_no_overlap rs qp unit ag pg g L E)]. Qed.
Print Assumptions C54_lpd_grid.

Theorem C54_four_positions : forall qp, (List.length qp < 4)%nat ->
  (forall ag pg unit, agipd_from_quad_positions qp ag pg unit = Err EIndexError) /\
  forall unit ag pg, lpd_from_quad_positions qp unit ag pg = Err EIndexError.
Proof. intros qp L. split; intros; [apply agipd_missing|apply lpd_missing]; exact L. Qed.
Print Assumptions C54_four_positions.

Example C54_example : exists g, agipd_from_quad_positions ex_quads 2 29 (pixel_size AGIPD) = Ok g /\
  covers (pixel_shape 1 AGIPD) AGIPD g 0 1 0 0 624 (-459).
Proof.
  destruct (@agipd_spec ex_quads 2 29 (pixel_size AGIPD) eq_refl) as (g & E & F & S). exists g. split; [exact E|].
  destruct (@full_at AGIPD g 0 1 F) as [tl Htl]; [lia|cbn; lia|].
  apply covers_iff. exists tl. split; [exact Htl|]. split; [vm_compute; intuition congruence|].
  vm_compute in E. injection E as <-. vm_compute in Htl. injection Htl as <-. vm_compute. reflexivity.
Qed.

(** ** C69: assembly with interpolation *)

(** The mapping given to the interpolation cannot be right, whatever the centre: of
    two points of a tile with different slow scan coordinates at most one is taken
    from the right place in the data. *)
Theorem C69_interpolation_refuted : forall qp ag pg g m t tl c s s' f, List.length qp = 4%nat ->
  agipd_from_quad_positions qp ag pg (pixel_size AGIPD) = Ok g -> tile_at g m t = Some tl -> ~ (s == s')%Q ->
  ~ (pair_qeq (interpolate_map c tl (out_point c tl s f)) (s, f) /\ pair_qeq (interpolate_map c tl (out_point c tl s' f)) (s', f)).
Proof. intros qp ag pg g m t tl c s s' f L E Ht Hs. exact (@interpolate_wrong qp ag pg g m t tl c s s' f L E Ht Hs). Qed.
Print Assumptions C69_interpolation_refuted.

(** What it does instead: neighbouring pixels get data 5000 points apart (one over the size of a pixel in metres), and the
    output pixel (0, 0) gets the data at the tile's matrix applied to the corner plus the centre. *)
Theorem C69_scale : forall qp ag pg g m t tl c s f s' f', List.length qp = 4%nat ->
  agipd_from_quad_positions qp ag pg (pixel_size AGIPD) = Ok g -> tile_at g m t = Some tl ->
  let a := interpolate_map c tl (out_point c tl s f) in let b := interpolate_map c tl (out_point c tl s' f') in
  (fst a - fst b == (s - s') / pixel_size AGIPD /\ snd a - snd b == (f - f') / pixel_size AGIPD)%Q.
Proof. intros qp ag pg g m t tl c s f s' f' L E Ht. exact (@interpolate_scale qp ag pg g m t tl c s f s' f' L E Ht). Qed.
Print Assumptions C69_scale.
(** The same for any tile whose two directions are not parallel. *)
Theorem C69_scale_all : forall tl c s f s' f', ~ (vy (t_ss tl) * vx (t_fs tl) - vy (t_fs tl) * vx (t_ss tl) == 0)%Q ->
  let a := interpolate_map c tl (out_point c tl s f) in let b := interpolate_map c tl (out_point c tl s' f') in
  (fst a - fst b == (s - s') / pixel_size AGIPD /\ snd a - snd b == (f - f') / pixel_size AGIPD)%Q.
Proof. exact interpolate_scale_all. Qed.
Print Assumptions C69_scale_all.
Example C69_scale_example : (* a tile turned by about 37 degrees *)
  let tl := mk_tile (mk_vec 0 0 0) (mk_vec (4 # 25000) (-3 # 25000) 0) (mk_vec (3 # 25000) (4 # 25000) 0) 64 128 in
  ~ (vy (t_ss tl) * vx (t_fs tl) - vy (t_fs tl) * vx (t_ss tl) == 0)%Q.
Proof. vm_compute. discriminate. Qed.
Theorem C69_offset : forall c tl,
  (fst (interpolate_map c tl (0, 0)) == vy (t_ss tl) * (vy (t_corner tl) + inject_Z (fst c)) + vy (t_fs tl) * (vx (t_corner tl) + inject_Z (snd c)) /\
   snd (interpolate_map c tl (0, 0)) == vx (t_ss tl) * (vy (t_corner tl) + inject_Z (fst c)) + vx (t_fs tl) * (vx (t_corner tl) + inject_Z (snd c)))%Q.
Proof. exact interpolate_offset. Qed.
Print Assumptions C69_offset.
(** The image made is large enough: with the centre added, every point of every tile lies inside it; and not larger than
    needed: in each direction there are points of tiles less than two pixels from both edges. *)
Theorem C69_canvas : forall g sy sx cy cx, (forall m t tl, tile_at g m t = Some tl -> 0 <= t_ss_px tl /\ 0 <= t_fs_px tl) ->
  agipd_dimensions g = Ok ((sy, sx), (cy, cx)) ->
  (forall m t tl a b, tile_at g m t = Some tl -> (0 <= a <= inject_Z (t_ss_px tl))%Q -> (0 <= b <= inject_Z (t_fs_px tl))%Q ->
     (0 < vy (point tl a b) / pixel_size AGIPD + inject_Z cy < inject_Z sy /\ 0 < vx (point tl a b) / pixel_size AGIPD + inject_Z cx < inject_Z sx)%Q) /\
  forall axis : bool, exists m t tl a b m' t' tl' a' b', tile_at g m t = Some tl /\ tile_at g m' t' = Some tl' /\
    (0 <= a <= inject_Z (t_ss_px tl) /\ 0 <= b <= inject_Z (t_fs_px tl) /\ 0 <= a' <= inject_Z (t_ss_px tl') /\ 0 <= b' <= inject_Z (t_fs_px tl') /\
     (if axis then vy (point tl a b) else vx (point tl a b)) / pixel_size AGIPD + inject_Z (if axis then cy else cx) < 2 /\
     inject_Z (if axis then sy else sx) - 2 < (if axis then vy (point tl' a' b') else vx (point tl' a' b')) / pixel_size AGIPD + inject_Z (if axis then cy else cx))%Q.
Proof.
  intros g sy sx cy cx P E. split.
  - intros m t tl a b Ht Ha Hb. exact (canvas_inside E Ht (conj Ha Hb)).
  - intros axis. destruct (canvas_tight E axis) as (tl & v & tl' & v' & H1 & H2 & H3 & H4 & A & B).
    destruct (in_tile_at H1) as (m & t & T1). destruct (in_tile_at H3) as (m' & t' & T2).
    destruct (P _ _ _ T1) as [P1 P2]. destruct (P _ _ _ T2) as [P3 P4].
    destruct (canvas_corner P1 P2 H2) as (a & b & [O1 O2] & X1 & Y1). destruct (canvas_corner P3 P4 H4) as (a' & b' & [O3 O4] & X2 & Y2).
    exists m, t, tl, a, b, m', t', tl', a', b'. do 6 (split; [assumption|]). destruct axis; [rewrite Y1 in A; rewrite Y2 in B|rewrite X1 in A; rewrite X2 in B]; split; assumption.
Qed.
Print Assumptions C69_canvas.
Theorem C69_canvas_exists : forall g, (exists m t tl, tile_at g m t = Some tl) -> exists size centre, agipd_dimensions g = Ok (size, centre).
Proof.
  intros g (m & t & tl & Ht). apply canvas_tile in Ht. unfold agipd_dimensions. destruct (map _ (flat_map tile_corners (List.concat g))) as [|c cs] eqn:E; [|eauto].
  exfalso. apply map_eq_nil in E. assert (H : In (t_corner tl) (flat_map tile_corners (List.concat g))) by (apply in_flat_map; exists tl; split; [exact Ht|now left]). rewrite E in H. destruct H.
Qed.
Print Assumptions C69_canvas_exists.
Example C69_canvas_example : exists g sy sx cy cx, agipd_from_quad_positions ex_quads 2 29 (pixel_size AGIPD) = Ok g /\
  (forall m t tl, tile_at g m t = Some tl -> 0 <= t_ss_px tl /\ 0 <= t_fs_px tl) /\ agipd_dimensions g = Ok ((sy, sx), (cy, cx)).
Proof.
  destruct (@agipd_spec ex_quads 2 29 (pixel_size AGIPD) eq_refl) as (g & E & F & S).
  destruct (@full_at AGIPD g 3 5 F) as [tl Htl]; [lia|cbn; lia|]. destruct (C69_canvas_exists g (ex_intro _ 3 (ex_intro _ 5 (ex_intro _ tl Htl)))) as ([sy sx] & [cy cx] & D).
  exists g, sy, sx, cy, cx. split; [exact E|]. split; [|exact D]. intros m t tl' H. apply canvas_tile in H. apply in_concat in H. destruct H as (md & H1 & H2).
  destruct F as ((_ & FF) & _). destruct (FF md H1) as [_ FT]. destruct (FT tl' H2) as [-> ->]. cbn. lia.
Qed.

Example C69_example : exists g tl, agipd_from_quad_positions ex_quads 2 29 (pixel_size AGIPD) = Ok g /\ tile_at g 3 5 = Some tl /\ ~ (0 == 1)%Q.
Proof.
  destruct (@agipd_spec ex_quads 2 29 (pixel_size AGIPD) eq_refl) as (g & E & F & S).
  destruct (@full_at AGIPD g 3 5 F) as [tl Htl]; [lia|cbn; lia|]. exists g, tl. repeat split; auto. discriminate.
Qed.

(** ** C70: geometry files *)

(** LPD: the corner at the highest x and y of each tile is at the sum of the
    quadrant's, the module's and the tile's position in the file. *)
Theorem C70_lpd : forall f qp unit g, lpd_from_h5 f qp unit = Ok g ->
  full LPD g /\ forall m t tl, tile_at g m t = Some tl -> exists q mp tp, nth_error qp (Z.to_nat (m / 4)) = Some q /\
    h5_module f (quad_of m) (mod_of m) = Some mp /\ h5_tile f (quad_of m) (mod_of m) (t + 1) = Some tp /\
    veq (point tl 32 128) (mk_vec (unit * (fst q + fst mp + fst tp)) (unit * (snd q + snd mp + snd tp)) 0)%Q /\
    veq (t_ss tl) (mk_vec 0 (pixel_size LPD) 0) /\ veq (t_fs tl) (mk_vec (pixel_size LPD) 0 0).
Proof. intros f qp unit g H. exact (lpd_h5_spec H). Qed.
Print Assumptions C70_lpd.

(** DSSC: the same for the corner at the lowest x and y. *)
Theorem C70_dssc : forall rs f qp unit g, dssc_from_h5 rs f qp unit = Ok g ->
  full DSSC g /\ forall m t tl, tile_at g m t = Some tl -> exists q mp tp, nth_error qp (Z.to_nat (m / 4)) = Some q /\
    h5_module f (quad_of m) (mod_of m) = Some mp /\ h5_tile f (quad_of m) (mod_of m) (t + 1) = Some tp /\
    veq (if m <? 8 then point tl 0 256 else point tl 128 0)
        (mk_vec (unit * (fst q + fst mp + fst tp)) (unit * (snd q + snd mp + snd tp)) 0)%Q /\
    veq (t_ss tl) (mk_vec 0 (- inject_Z (dssc_dir m) * (rs * pixel_size DSSC)) 0)%Q /\
    veq (t_fs tl) (mk_vec (inject_Z (dssc_dir m) * pixel_size DSSC) 0 0)%Q.
Proof. intros rs f qp unit g H. exact (dssc_h5_spec H). Qed.
Print Assumptions C70_dssc.

(** Inverting a file negates all positions. *)
Theorem C70_invert : forall f f', invert_lpd f = Ok f' -> forall q m, 1 <= q <= 4 -> 1 <= m <= 4 ->
  (exists p, h5_module f q m = Some p /\ h5_module f' q m = Some (- fst p, - snd p)%Q) /\
  forall t, 1 <= t <= 16 -> exists p, h5_tile f q m t = Some p /\ h5_tile f' q m t = Some (- fst p, - snd p)%Q.
Proof. exact invert_spec. Qed.
Print Assumptions C70_invert.

(** Inverting the result again never works: the name of the dataset
    "DetectorDescribtion" is read in one spelling and written in another. *)
Theorem C70_invert_twice_refuted : forall f f', invert_lpd f = Ok f' -> invert_lpd f' = Err EKeyError.
Proof. exact invert_twice. Qed.
Print Assumptions C70_invert_twice_refuted.

Definition ex_h5 : h5geom := mk_h5geom ["DetectorDescribtion"] (fun q m => Some (inject_Z (100 * q), inject_Z (10 * m)))
  (fun q m t => Some (inject_Z t, - inject_Z t))%Q.
Example C70_example : (exists g, lpd_from_h5 ex_h5 ex_quads (1 # 1000) = Ok g) /\ (exists g, dssc_from_h5 (15 # 13) ex_h5 ex_quads (1 # 1000) = Ok g) /\
  exists f', invert_lpd ex_h5 = Ok f'.
Proof. split; [|split]; eexists; vm_compute; reflexivity. Qed.
