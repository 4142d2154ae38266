(** C99: assembling several frames at once. *)

From Coq Require Import QArith Qround.
From Verif Require Import Base L_Base M_Geom S_Geom L_Geom1 L_Geom2 L_Geom4 M_GeomNd S_GeomNd L_GeomNd.
Local Open Scope Z_scope.
Local Open Scope list_scope.

Section Frames.
Context {A : Type}.
Variables (nan : A) (rs : Q) (d : detector) (g : geometry).
Notation assemble := (nd_position_modules_fast nan rs d g).

Lemma size_of sn H W : snap_geometry rs d g = Ok sn -> output_shape rs d g = Ok (H, W) -> sn_size sn = (H, W).
Proof. intros E. unfold output_shape. rewrite E. cbn [bind]. now intros [= ->]. Qed.

Lemma shape_back data : lastn 3 (nz_shape data) = [n_modules d; mod_ss d; mod_fs d] ->
  nz_shape (A := A) data = uptolast 3 (nz_shape data) ++ [16; mod_ss d; mod_fs d].
Proof. intros E. rewrite <- (lastn_split 3 (nz_shape data)) at 1. now rewrite E. Qed.

Lemma ok_shapes data out r : assemble data out = Ok r ->
  exists sn lead, snap_geometry rs d g = Ok sn /\ nz_shape data = lead ++ [16; mod_ss d; mod_fs d] /\
  forall o c, out = Some (o, c) -> nz_shape o = lead ++ [fst (sn_size sn); snd (sn_size sn)] /\ c = true.
Proof.
  unfold nd_position_modules_fast. destruct (snap_geometry rs d g) as [sn|] eqn:Es; [|discriminate]. cbn [bind].
  unfold nd_position_modules. destruct (zl_eqb _ _) eqn:E; [|discriminate]. cbn [negb]. apply zl_eqb_eq in E. intros Hr.
  exists sn, (uptolast 3 (nz_shape data)). split; [reflexivity|]. split; [exact (shape_back _ E)|].
  intros o c ->. destruct (zl_eqb (nz_shape o) _) eqn:E2; [|discriminate]. apply zl_eqb_eq in E2. split; [exact E2|].
  destruct c; [reflexivity|discriminate].
Qed.

Lemma frames data out img c : assemble data out = Ok (img, c) ->
  exists lead H W, nz_shape data = lead ++ [16; mod_ss d; mod_fs d] /\ output_shape rs d g = Ok (H, W) /\
    (forall o cast, out = Some (o, cast) -> nz_shape o = lead ++ [H; W] /\ cast = true) /\ nz_shape img = lead ++ [H; W] /\
    forall k, exists im,
      position_modules_fast nan rs d g (16, mod_ss d, mod_fs d) (frame data k) (frame_out H W out k) = Ok (im, c) /\
      forall y x, nz_at img (k ++ [y; x]) = im y x.
Proof.
  intros E. destruct (ok_shapes _ _ _ E) as (sn & lead & Es & Ed & Eo). destruct (sn_size sn) as [H W] eqn:Ew. exists lead, H, W.
  assert (P := fun k => @position_frames A nan rs d g data out lead k Ed sn Es (fun o c0 X => proj1 (eq_rect _ (fun p => nz_shape o = lead ++ [fst p; snd p] /\ c0 = true) (Eo o c0 X) _ (eq_sym Ew)))).
  split; [exact Ed|]. split; [unfold output_shape; rewrite Es; cbn [bind]; now rewrite Ew|]. split; [exact Eo|].
  assert (Q : forall k, frame_out H W out k = out_frame k sn out) by (intros k; unfold frame_out, out_frame; rewrite Ew; reflexivity).
  rewrite E in P. split.
  - specialize (P []). destruct (position_modules_fast _ _ _ _ _ _ _) as [[im c']|]; [|destruct P]. cbn [agree fst snd] in P. rewrite Ew in P. exact (proj1 (proj2 P)).
  - intros k. specialize (P k). rewrite Q. change (frame data k) with (frame_at data k).
    change (16, mod_ss d, mod_fs d) with (n_modules d, mod_ss d, mod_fs d).
    destruct (position_modules_fast nan rs d g _ (frame_at data k) _) as [[im c']|]; [|destruct P]. cbn [agree fst snd] in P. destruct P as [-> [_ P]].
    exists im. auto.
Qed.

Lemma frame_fails data out lead H W k e : nz_shape data = lead ++ [16; mod_ss d; mod_fs d] -> output_shape rs d g = Ok (H, W) ->
  (forall o cast, out = Some (o, cast) -> nz_shape o = lead ++ [H; W]) ->
  assemble data out = Err e <-> position_modules_fast nan rs d g (16, mod_ss d, mod_fs d) (frame data k) (frame_out H W out k) = Err e.
Proof.
  intros Ed Eh Eo. unfold output_shape in Eh. destruct (snap_geometry rs d g) as [sn|] eqn:Es; [|discriminate]. cbn [bind] in Eh. injection Eh as Ew.
  assert (P := @position_frames A nan rs d g data out lead k Ed sn Es). rewrite Ew in P. specialize (P Eo).
  assert (Q : frame_out H W out k = out_frame k sn out) by (unfold frame_out, out_frame; rewrite Ew; reflexivity).
  rewrite Q. change (frame data k) with (frame_at data k). change (16, mod_ss d, mod_fs d) with (n_modules d, mod_ss d, mod_fs d).
  destruct (nd_position_modules_fast nan rs d g data out) as [r|e1], (position_modules_fast nan rs d g _ (frame_at data k) _) as [r'|e2]; cbn in P; try contradiction;
    split; intros X; try discriminate; congruence.
Qed.
End Frames.

(** The result has the dimensions before those of a frame, then those of an image; each frame of it is what assembling
    this frame of the data alone gives, with the same centre. *)
Theorem C99_frames : forall A (nan : A) rs d g data out img c, nd_position_modules_fast nan rs d g data out = Ok (img, c) ->
  exists lead H W, nz_shape data = lead ++ [16; mod_ss d; mod_fs d] /\ output_shape rs d g = Ok (H, W) /\ nz_shape img = lead ++ [H; W] /\
    forall k, index_in lead k -> exists im,
      position_modules_fast nan rs d g (16, mod_ss d, mod_fs d) (frame data k) (frame_out H W out k) = Ok (im, c) /\
      forall y x, 0 <= y < H -> 0 <= x < W -> nz_at img (k ++ [y; x]) = im y x.
Proof.
  intros A nan rs d g data out img c E. destruct (@frames A nan rs d g data out img c E) as (lead & H & W & E1 & E2 & _ & E4 & F).
  exists lead, H, W. split; [exact E1|]. split; [exact E2|]. split; [exact E4|]. intros k _. destruct (F k) as (im & E5 & E6). exists im. auto.
Qed.
Print Assumptions C99_frames.

(** Every pixel of every frame: as for one image, with the data of the frame. *)
Theorem C99_pixels : forall A rs d g, fits d g -> snappable (pixel_shape rs d) g -> List.concat g <> [] ->
  exists H W cy cx, output_shape rs d g = Ok (H, W) /\
  forall (nan : A) lead (data : ndz A) (out : option (ndz A * bool)), nz_shape data = lead ++ [16; mod_ss d; mod_fs d] ->
   (forall o cast, out = Some (o, cast) -> nz_shape o = lead ++ [H; W] /\ cast = true) ->
   exists img, nd_position_modules_fast nan rs d g data out = Ok (img, (cy, cx)) /\ nz_shape img = lead ++ [H; W] /\
   forall k y x, index_in lead k -> 0 <= y < H -> 0 <= x < W ->
     (exists m t s f, covers (pixel_shape rs d) d g m t s f (y - cy) (x - cx) /\
        (forall m' t' s' f', covers (pixel_shape rs d) d g m' t' s' f' (y - cy) (x - cx) -> (m' = m /\ t' = t) \/ after m t m' t') /\
        nz_at img (k ++ [y; x]) = nz_at data (k ++ [m; fst (data_pixel d t s f); snd (data_pixel d t s f)])) \/
     ((forall m t s f, ~ covers (pixel_shape rs d) d g m t s f (y - cy) (x - cx)) /\
        nz_at img (k ++ [y; x]) = match out with None => nan | Some (o, _) => nz_at o (k ++ [y; x]) end).
Proof.
  intros A rs d g H1 H2 H3. destruct (@assemble_spec A rs d g H1 H2 H3) as (H & W & cy & cx & Es & _ & _ & _ & _ & _ & K).
  exists H, W, cy, cx. split; [exact Es|]. intros nan lead data out Ed Eo.
  assert (K' : forall k, exists im, position_modules_fast nan rs d g (16, mod_ss d, mod_fs d) (frame data k) (frame_out H W out k) = Ok (im, (cy, cx)) /\
    forall y x, (exists m t s f, covers (pixel_shape rs d) d g m t s f (y - cy) (x - cx) /\
        (forall m' t' s' f', covers (pixel_shape rs d) d g m' t' s' f' (y - cy) (x - cx) -> (m' = m /\ t' = t) \/ after m t m' t') /\
        im y x = frame data k m (fst (data_pixel d t s f)) (snd (data_pixel d t s f))) \/
     ((forall m t s f, ~ covers (pixel_shape rs d) d g m t s f (y - cy) (x - cx)) /\ im y x = o_start nan (frame_out H W out k) y x)).
  { intros k. apply (K nan (frame data k) (frame_out H W out k)). intros o. destruct out as [[o' c']|]; [|discriminate]. cbn [frame_out]. intros X. injection X as <-.
    destruct (Eo o' c' eq_refl) as [_ ->]. split; reflexivity. }
  destruct (nd_position_modules_fast nan rs d g data out) as [[img c]|e] eqn:E.
  - destruct (@frames A nan rs d g data out img c E) as (lead' & H' & W' & E1 & E2 & _ & E4 & F).
    rewrite Es in E2. injection E2 as <- <-. rewrite Ed in E1. apply app_inv_tail in E1. subst lead'.
    assert (c = (cy, cx)). { destruct (F []) as (im & E5 & _). destruct (K' []) as (im' & E6 & _). rewrite E5 in E6. now injection E6. } subst c.
    exists img. split; [reflexivity|]. split; [exact E4|]. intros k y x _ _ _. destruct (F k) as (im & E5 & E6). destruct (K' k) as (im' & E7 & V).
    rewrite E5 in E7. injection E7 as <-. rewrite !E6. destruct (V y x) as [V1|[V1 V2]]; [left; exact V1|right]. split; [exact V1|]. rewrite V2.
    destruct out as [[o c']|]; reflexivity.
  - exfalso. destruct (K' []) as (im & E6 & _).
    apply (proj1 (@frame_fails A nan rs d g data out lead H W [] e Ed Es (fun o cast X => proj1 (Eo o cast X)))) in E. congruence.
Qed.
Print Assumptions C99_pixels.

(** Data whose last three dimensions are not those of a frame, and arrays for the result with other dimensions, are
    refused; so is a type the data cannot safely be cast to.  If the dimensions are right, several frames fail exactly
    as each of them alone. *)
Theorem C99_refused : forall A (nan : A) rs d g H W, output_shape rs d g = Ok (H, W) ->
  (forall data out, (forall lead, nz_shape data <> lead ++ [16; mod_ss d; mod_fs d]) ->
     nd_position_modules_fast nan rs d g data out = Err EAssertionError) /\
  (forall lead data o cast, nz_shape data = lead ++ [16; mod_ss d; mod_fs d] -> nz_shape o <> lead ++ [H; W] ->
     nd_position_modules_fast nan rs d g data (Some (o, cast)) = Err EAssertionError) /\
  (forall lead data o, nz_shape data = lead ++ [16; mod_ss d; mod_fs d] -> nz_shape o = lead ++ [H; W] ->
     nd_position_modules_fast nan rs d g data (Some (o, false)) = Err ETypeError) /\
  (forall lead data out k e, nz_shape data = lead ++ [16; mod_ss d; mod_fs d] -> (forall o cast, out = Some (o, cast) -> nz_shape o = lead ++ [H; W]) ->
     nd_position_modules_fast nan rs d g data out = Err e <->
     position_modules_fast nan rs d g (16, mod_ss d, mod_fs d) (frame data k) (frame_out H W out k) = Err e).
Proof.
  intros A nan rs d g H W Es. assert (Es' := Es). unfold output_shape in Es. destruct (snap_geometry rs d g) as [sn|] eqn:E; [|discriminate]. cbn [bind] in Es. injection Es as Ew.
  unfold nd_position_modules_fast at 1 2 3. rewrite E. cbn [bind]. unfold nd_position_modules. rewrite Ew. cbn [fst snd]. split; [|split; [|split]].
  - intros data out Hd. destruct (zl_eqb _ _) eqn:Z; [|reflexivity]. apply zl_eqb_eq in Z. exfalso. exact (Hd _ (shape_back _ _ Z)).
  - intros lead data o cast Ed Ho. rewrite Ed, lastn_app, uptolast_app by reflexivity.
    rewrite (proj2 (zl_eqb_eq _ _) (eq_refl : [16; mod_ss d; mod_fs d] = [n_modules d; mod_ss d; mod_fs d])). cbn [negb].
    destruct (zl_eqb (nz_shape o) _) eqn:Z; [apply zl_eqb_eq in Z; contradiction|reflexivity].
  - intros lead data o Ed Ho. rewrite Ed, lastn_app, uptolast_app by reflexivity.
    rewrite (proj2 (zl_eqb_eq _ _) (eq_refl : [16; mod_ss d; mod_fs d] = [n_modules d; mod_ss d; mod_fs d])). cbn [negb].
    rewrite (proj2 (zl_eqb_eq _ _) Ho). reflexivity.
  - intros lead data out k e Ed Eo. exact (@frame_fails A nan rs d g data out lead H W k e Ed Es' Eo).
Qed.
Print Assumptions C99_refused.

(** An array made with output_array_for_position_fast, for the same extra dimensions, gives the same as none. *)
Theorem C99_output_array : forall A (nan : A) rs d g lead o data, nd_output_array nan rs d g lead = Ok o ->
  nz_shape data = lead ++ [16; mod_ss d; mod_fs d] ->
  (exists H W, output_shape rs d g = Ok (H, W) /\ nz_shape o = lead ++ [H; W] /\ forall k, index_in (nz_shape o) k -> nz_at o k = nan) /\
  nd_position_modules_fast nan rs d g data (Some (o, true)) = nd_position_modules_fast nan rs d g data None.
Proof.
  intros A nan rs d g lead o data E Ed. unfold nd_output_array in E. unfold nd_position_modules_fast, output_shape.
  destruct (snap_geometry rs d g) as [sn|]; [|discriminate]. cbn [bind] in *. injection E as <-. split.
  - exists (fst (sn_size sn)), (snd (sn_size sn)). split; [now destruct (sn_size sn)|]. split; reflexivity.
  - unfold nd_position_modules. rewrite Ed, lastn_app, uptolast_app by reflexivity. cbn [nd_output nz_shape].
    rewrite (proj2 (zl_eqb_eq _ _) eq_refl : zl_eqb (lead ++ [fst (sn_size sn); snd (sn_size sn)]) _ = true). reflexivity.
Qed.
Print Assumptions C99_output_array.

Lemma last_same : forall px d g y x m t s f m' t' s' f', snappable px g -> covers px d g m t s f y x -> covers px d g m' t' s' f' y x ->
  (forall m1 t1 s1 f1, covers px d g m1 t1 s1 f1 y x -> (m1 = m /\ t1 = t) \/ after m t m1 t1) ->
  (forall m1 t1 s1 f1, covers px d g m1 t1 s1 f1 y x -> (m1 = m' /\ t1 = t') \/ after m' t' m1 t1) ->
  m = m' /\ t = t' /\ s = s' /\ f = f'.
Proof.
  intros px d g y x m t s f m' t' s' f' Hs C C' L L'. assert (M : m = m' /\ t = t').
  { specialize (L _ _ _ _ C'). specialize (L' _ _ _ _ C). unfold after in *. lia. }
  destruct M as [<- <-]. destruct C as (tl & o & T & _ & S & E). destruct C' as (tl' & o' & T' & _ & S' & E').
  rewrite T in T'. injection T' as <-. apply snaps_unique in S. apply snaps_unique in S'. subst o o'.
  destruct (@cell_inj (rounded px tl) s f s' f') as [-> ->]; [exact (snappable_rounded Hs T)|congruence|auto].
Qed.

(** An output array can be used again: the frames of other data are assembled into the result of an earlier call as
    into a new array. *)
Theorem C99_reuse : forall A (nan : A) rs d g lead first second img c, fits d g -> snappable (pixel_shape rs d) g -> List.concat g <> [] ->
  nz_shape first = lead ++ [16; mod_ss d; mod_fs d] -> nz_shape second = lead ++ [16; mod_ss d; mod_fs d] ->
  nd_position_modules_fast nan rs d g first None = Ok (img, c) ->
  exists again fresh, nd_position_modules_fast nan rs d g second (Some (img, true)) = Ok (again, c) /\
    nd_position_modules_fast nan rs d g second None = Ok (fresh, c) /\ same_array again fresh.
Proof.
  intros A nan rs d g lead a b img c H1 H2 H3 Ea Eb E.
  destruct (@C99_pixels A rs d g H1 H2 H3) as (H & W & cy & cx & Es & K).
  destruct (K nan lead a None Ea) as (img' & E' & S1 & V1); [discriminate|]. rewrite E in E'. injection E' as <- ->.
  destruct (K nan lead b (Some (img, true)) Eb) as (again & E2 & S2 & V2). { intros o cast X. injection X as <- <-. auto. }
  destruct (K nan lead b None Eb) as (fresh & E3 & S3 & V3); [discriminate|].
  exists again, fresh. split; [exact E2|]. split; [exact E3|]. split; [congruence|]. intros k Hk. rewrite S2 in Hk.
  apply Forall2_app_inv_r in Hk as (k1 & k2 & F1 & F2 & ->). inversion F2 as [|y ? k3 ? Hy F3]; subst. inversion F3 as [|x ? k4 ? Hx F4]; subst. inversion F4; subst.
  destruct (V2 k1 y x F1 Hy Hx) as [(m & t & s & f & C & L & ->)|[N ->]].
  - destruct (V3 k1 y x F1 Hy Hx) as [(m' & t' & s' & f' & C' & L' & ->)|[N _]]; [|exfalso; exact (N _ _ _ _ C)].
    destruct (@last_same _ _ _ _ _ _ _ _ _ _ _ _ _ H2 C C' L L') as (-> & -> & -> & ->). reflexivity.
  - destruct (V3 k1 y x F1 Hy Hx) as [(m' & t' & s' & f' & C' & _)|[_ ->]]; [exfalso; exact (N _ _ _ _ C')|].
    destruct (V1 k1 y x F1 Hy Hx) as [(m' & t' & s' & f' & C' & _)|[_ ->]]; [exfalso; exact (N _ _ _ _ C')|reflexivity].
Qed.
Print Assumptions C99_reuse.

(** An AGIPD geometry, and data of two trains with three frames each. *)
Definition ex_quads : list (Q * Q) := [(-525, 625); (-550, -10); (520, -160); (542 # 1, 475)]%Q.
Definition ex_data (b : Z) : ndz Z := mk_ndz [2; 3; 16; 512; 128] (fun k => fold_left (fun a i => 1000 * a + i) k b).
Example C99_example : exists g, agipd_from_quad_positions ex_quads 2 29 (pixel_size AGIPD) = Ok g /\
  fits AGIPD g /\ snappable (pixel_shape 1 AGIPD) g /\ List.concat g <> [] /\
  output_shape 1 AGIPD g = Ok (1256, 1092) /\ nz_shape (ex_data 0) = [2; 3] ++ [16; mod_ss AGIPD; mod_fs AGIPD] /\ index_in [2; 3] [1; 2] /\
  exists img c, nd_position_modules_fast (-1) 1 AGIPD g (ex_data 0) None = Ok (img, c) /\ nz_shape img = [2; 3; 1256; 1092].
Proof.
  destruct (@agipd_spec ex_quads 2 29 (pixel_size AGIPD) eq_refl) as (g & E & F & _). exists g. split; [exact E|].
  assert (F1 : fits AGIPD g) by exact (proj1 F).
  assert (F2 : snappable (pixel_shape 1 AGIPD) g) by exact (@agipd_px_snappable 1 ex_quads 2 29 _ eq_refl E).
  assert (F4 : output_shape 1 AGIPD g = Ok (1256, 1092)).
  { assert (X : Ok g = Ok g) by reflexivity. rewrite <- E in X at 2. vm_compute in X. injection X as ->. vm_compute. reflexivity. }
  assert (F3 : List.concat g <> []). { intros X. unfold output_shape, snap_geometry in F4. destruct (mapM _ g) as [l|] eqn:El; [|discriminate].
    cbn [bind] in F4. destruct (List.concat l) as [|x r] eqn:Ec; [unfold snapped_dimensions in F4; rewrite Ec in F4; discriminate|].
    assert (I : In x (List.concat l)) by (rewrite Ec; now left). apply in_concat in I as (m & I1 & I2).
    destruct (mapM_In El I1) as (tl & I3 & I4). destruct (mapM_In I4 I2) as (t & I5 & _).
    assert (Y : In t (List.concat g)) by (apply in_concat; eauto). rewrite X in Y. destruct Y. }
  split; [exact F1|]. split; [exact F2|]. split; [exact F3|]. split; [exact F4|]. split; [reflexivity|]. split; [repeat constructor; lia|].
  destruct (@C99_pixels Z 1 AGIPD g F1 F2 F3) as (H & W & cy & cx & Es & K). rewrite F4 in Es. injection Es as <- <-.
  destruct (K (-1) [2; 3] (ex_data 0) None eq_refl) as (img & E1 & S1 & _); [discriminate|]. exists img, (cy, cx). split; [exact E1|exact S1].
Qed.
Example C99_reuse_example : exists g img c again fresh, agipd_from_quad_positions ex_quads 2 29 (pixel_size AGIPD) = Ok g /\
  nd_position_modules_fast (-1) 1 AGIPD g (ex_data 0) None = Ok (img, c) /\
  nd_position_modules_fast (-1) 1 AGIPD g (ex_data 5) (Some (img, true)) = Ok (again, c) /\
  nd_position_modules_fast (-1) 1 AGIPD g (ex_data 5) None = Ok (fresh, c) /\ same_array again fresh.
Proof.
  destruct C99_example as (g & E & F1 & F2 & F3 & _ & S & _ & img & c & E1 & _).
  destruct (@C99_reuse Z (-1) 1 AGIPD g [2; 3] (ex_data 0) (ex_data 5) img c F1 F2 F3 S eq_refl E1) as (again & fresh & E2 & E3 & E4).
  exists g, img, c, again, fresh. auto.
Qed.
(** One dimension too few. *)
Example C99_refused_example : forall g, agipd_from_quad_positions ex_quads 2 29 (pixel_size AGIPD) = Ok g ->
  nd_position_modules_fast (-1) 1 AGIPD g (mk_ndz [512; 128] (fun _ => 0)) None = Err EAssertionError.
Proof.
  intros g E. destruct C99_example as (g' & E' & _ & _ & _ & Es & _). rewrite E in E'. injection E' as <-.
  apply (proj1 (@C99_refused Z (-1) 1 AGIPD g 1256 1092 Es)). intros lead X. apply (f_equal (@List.length Z)) in X. rewrite app_length in X. cbn in X. lia.
Qed.
