(** Snapping to the pixel grid and assembling images. *)

From Coq Require Import QArith Qround Qabs Lqa.
From Verif Require Import Base L_Base M_Geom S_Geom L_Geom1.

Set Implicit Arguments.
Unset Strict Implicit.

Local Open Scope Z_scope.
Local Open Scope list_scope.

(** ** Rounding *)

Lemma np_around_half_even : forall q, half_even q (np_around q).
Proof.
  intros q. pose proof (Qfloor_le q) as A1. pose proof (Qlt_floor q) as A2.
  rewrite inject_Z_plus in A2. change (inject_Z 1) with 1%Q in A2.
  unfold half_even, nearest, np_around. set (f := Qfloor q) in *.
  destruct (Qcompare_spec (q - inject_Z f) (1 # 2)) as [E|E|E].
  - destruct (Z.even f) eqn:Ev.
    + split; [|auto]. apply Qabs_Qle_condition. split; lra.
    + split; [|intros _; rewrite Z.even_add, Ev; reflexivity]. rewrite inject_Z_plus. change (inject_Z 1) with 1%Q.
      apply Qabs_Qle_condition. split; lra.
  - split; [apply Qabs_Qle_condition; split; lra|]. intros H. exfalso.
    rewrite Qabs_pos in H by lra. lra.
  - rewrite inject_Z_plus. change (inject_Z 1) with 1%Q. split; [apply Qabs_Qle_condition; split; lra|]. intros H. exfalso.
    rewrite Qabs_neg in H by lra. lra.
Qed.

Lemma half_even_le : forall q z z', half_even q z -> half_even q z' -> z < z' -> False.
Proof.
  intros q z z' [H1 E1] [H2 E2] L. unfold nearest in *.
  apply Qabs_Qle_condition in H1. apply Qabs_Qle_condition in H2.
  assert (L1 : z' <= z + 1).
  { rewrite Zle_Qle. rewrite inject_Z_plus. change (inject_Z 1) with 1%Q. lra. }
  assert (z' = z + 1) by lia. subst z'.
  rewrite inject_Z_plus in *. change (inject_Z 1) with 1%Q in *.
  assert (A : Z.even z = true). { apply E1. rewrite Qabs_pos; lra. }
  assert (B : Z.even (z + 1) = true). { apply E2. rewrite Qabs_neg; lra. }
  rewrite Z.even_add, A in B. discriminate.
Qed.

Lemma half_even_unique : forall q z z', half_even q z -> half_even q z' -> z = z'.
Proof.
  intros q z z' H H'. destruct (Z.lt_trichotomy z z') as [L|[E|L]]; [|exact E|]; exfalso; eauto using half_even_le.
Qed.

Definition rounded (px : Q * Q) (t : tile) : on_grid :=
  mk_on (swap (round_xy (t_corner t) px)) (swap (round_xy (t_ss t) px)) (swap (round_xy (t_fs t) px)).

Lemma rounded_snaps : forall px t, snaps_to px t (rounded px t).
Proof. intros px t. repeat split; apply np_around_half_even. Qed.

Lemma snaps_unique : forall px t o, snaps_to px t o -> o = rounded px t.
Proof.
  intros px t [[cy cx] [sy sx] [fy fx]] (H1 & H2 & H3 & H4 & H5 & H6). cbn in *. unfold rounded, swap, round_xy. cbn.
  f_equal; f_equal; eapply half_even_unique; eauto using np_around_half_even.
Qed.

Lemma axis_aligned_iff : forall o,
  axis_aligned (swap (og_ss o)) (swap (og_fs o)) = true <-> aligned o.
Proof.
  intros [[cy cx] [sy sx] [fy fx]]. unfold axis_aligned, pair_eqb, swap, aligned. cbn [fst snd og_ss og_fs].
  rewrite orb_true_iff, !andb_true_iff, !Z.eqb_eq. lia.
Qed.

Lemma swap_swap : forall p, swap (swap p) = p.
Proof. intros []. reflexivity. Qed.

Definition gridded (px : Q * Q) (t : tile) : gfrag :=
  let o := rounded px t in mk_grid (og_corner o) (og_ss o) (og_fs o) (t_ss_px t) (t_fs_px t).

Lemma snap_ok : forall px t, aligned (rounded px t) -> snap px t = Ok (gridded px t).
Proof.
  intros px t H. apply axis_aligned_iff in H. unfold rounded in H. cbn [og_ss og_fs] in H. rewrite !swap_swap in H.
  unfold snap. rewrite H. reflexivity.
Qed.

Lemma snap_inv : forall px t g, snap px t = Ok g -> g = gridded px t /\ aligned (rounded px t).
Proof.
  intros px t g H. unfold snap in H.
  destruct (axis_aligned (round_xy (t_ss t) px) (round_xy (t_fs t) px)) eqn:E; [|discriminate].
  injection H as <-. split; [reflexivity|]. apply axis_aligned_iff. unfold rounded. cbn [og_ss og_fs]. rewrite !swap_swap. exact E.
Qed.

Lemma snap_err : forall px t e, snap px t = Err e -> e = EAssertionError /\ ~ aligned (rounded px t).
Proof.
  intros px t e H. split.
  - unfold snap in H. destruct (axis_aligned _ _); congruence.
  - intros A. rewrite (snap_ok A) in H. discriminate.
Qed.

(** ** Cells *)

Ltac unit_cases H :=
  match type of H with Z.abs ?z = 1 => assert (z = 1 \/ z = -1) as [-> | ->] by lia; clear H end.

Lemma grid_cell : forall A o S F s f (a : Z -> Z -> A), aligned o -> 0 <= s < S -> 0 <= f < F ->
  let g := mk_grid (og_corner o) (og_ss o) (og_fs o) S F in
  let '(y, x) := cell o s f in
  0 <= y - fst (g_corner g) < fst (g_dims g) /\ 0 <= x - snd (g_corner g) < snd (g_dims g) /\
  transform g a (y - fst (g_corner g)) (x - snd (g_corner g)) = a s f.
Proof.
  intros A [[cy cx] [sy sx] [fy fx]] S F s f a H Hs Hf. unfold aligned in H. cbn [og_corner og_ss og_fs fst snd] in *.
  unfold cell, mk_grid, transform, flip. cbn [og_corner og_ss og_fs fst snd].
  destruct H as [(-> & H1 & H2 & ->)|(H1 & -> & -> & H2)]; unit_cases H1; unit_cases H2; cbn -[Z.mul Z.add Z.sub Z.min];
    (split; [lia|]; split; [lia|]; f_equal; lia).
Qed.

Lemma grid_onto : forall o S F y x, aligned o ->
  let g := mk_grid (og_corner o) (og_ss o) (og_fs o) S F in
  0 <= y - fst (g_corner g) < fst (g_dims g) -> 0 <= x - snd (g_corner g) < snd (g_dims g) ->
  exists s f, 0 <= s < S /\ 0 <= f < F /\ cell o s f = (y, x).
Proof.
  intros [[cy cx] [sy sx] [fy fx]] S F y x H. unfold aligned in H. cbn [og_corner og_ss og_fs fst snd] in *.
  unfold cell, mk_grid. cbn [og_corner og_ss og_fs fst snd].
  destruct H as [(-> & H1 & H2 & ->)|(H1 & -> & -> & H2)]; unit_cases H1; unit_cases H2; cbn -[Z.mul Z.add Z.sub Z.min];
    intros Hy Hx.
  - exists (x - cx), (y - cy). repeat split; try lia. f_equal; lia.
  - exists (x - cx), (cy - 1 - y). repeat split; try lia. f_equal; lia.
  - exists (cx - 1 - x), (y - cy). repeat split; try lia. f_equal; lia.
  - exists (cx - 1 - x), (cy - 1 - y). repeat split; try lia. f_equal; lia.
  - exists (y - cy), (x - cx). repeat split; try lia. f_equal; lia.
  - exists (y - cy), (cx - 1 - x). repeat split; try lia. f_equal; lia.
  - exists (cy - 1 - y), (x - cx). repeat split; try lia. f_equal; lia.
  - exists (cy - 1 - y), (cx - 1 - x). repeat split; try lia. f_equal; lia.
Qed.

Lemma cell_inj : forall o s f s' f', aligned o -> cell o s f = cell o s' f' -> s = s' /\ f = f'.
Proof.
  intros [[cy cx] [sy sx] [fy fx]] s f s' f' H E. unfold aligned in H. unfold cell in E. cbn [og_corner og_ss og_fs fst snd] in *.
  apply pair_equal_spec in E. destruct H as [(-> & H1 & H2 & ->)|(H1 & -> & -> & H2)]; unit_cases H1; unit_cases H2; lia.
Qed.

Lemma grid_shape : forall c ss fs S F, let g := mk_grid c ss fs S F in
  g_opp g = (fst (g_corner g) + fst (g_dims g), snd (g_corner g) + snd (g_dims g)) /\
  g_dims g = if g_swap g then (F, S) else (S, F).
Proof. intros c ss fs S F. unfold mk_grid. destruct (fst fs =? 0); split; reflexivity. Qed.

(** ** Snapping all tiles *)

Lemma mapM_nested_at : forall A B (f : A -> res B) g ms, mapM (mapM f) g = Ok ms ->
  forall m t b, at_ ms m t = Some b <-> exists a, at_ g m t = Some a /\ f a = Ok b.
Proof.
  intros A B f g ms H m t b. unfold at_. destruct ((0 <=? m) && (0 <=? t)); [|split; [discriminate|intros (? & ? & _); discriminate]].
  assert (F : forall g ms, mapM (mapM f) g = Ok ms -> forall k, match nth_error ms k with
     | Some bs => exists l, nth_error g k = Some l /\ mapM f l = Ok bs | None => nth_error g k = None end).
  { clear. induction g as [|l g IH]; intros ms H k; cbn [mapM] in H.
    - injection H as <-. destruct k; reflexivity.
    - destruct (mapM f l) as [bs|] eqn:E1; [|discriminate]. cbn [bind] in H.
      destruct (mapM (mapM f) g) as [ms'|] eqn:E2; [|discriminate]. injection H as <-.
      destruct k as [|k]; cbn; [eauto|]. apply IH. reflexivity. }
  specialize (F _ _ H (Z.to_nat m)). destruct (nth_error ms (Z.to_nat m)) as [bs|].
  2: { rewrite F. split; [discriminate|intros (? & ? & _); discriminate]. }
  destruct F as (l & -> & E). clear H.
  assert (G : forall l bs, mapM f l = Ok bs -> forall k b, nth_error bs k = Some b <-> exists a, nth_error l k = Some a /\ f a = Ok b).
  { clear. induction l as [|a l IH]; intros bs H k b; cbn [mapM] in H.
    - injection H as <-. destruct k; split; try discriminate; intros (? & ? & _); discriminate.
    - destruct (f a) as [b0|] eqn:E1; [|discriminate]. cbn [bind] in H.
      destruct (mapM f l) as [bs'|] eqn:E2; [|discriminate]. injection H as <-.
      destruct k as [|k]; cbn; [|apply IH; reflexivity]. split.
      + intros [= <-]. eauto.
      + intros (a' & [= <-] & E). congruence. }
  apply G. exact E.
Qed.

Lemma at_In_concat : forall A (g : list (list A)) a, In a (List.concat g) <-> exists m t, at_ g m t = Some a.
Proof.
  intros A g a. split.
  - intros H. apply in_concat in H. destruct H as (md & H1 & H2).
    apply In_nth_error in H1. destruct H1 as [m Hm]. apply In_nth_error in H2. destruct H2 as [t Ht].
    exists (Z.of_nat m), (Z.of_nat t). unfold at_. rewrite !(proj2 (Z.leb_le 0 _)) by lia. cbn [andb].
    rewrite !Nat2Z.id, Hm. exact Ht.
  - intros (m & t & H). unfold at_ in H. destruct ((0 <=? m) && (0 <=? t)); [|discriminate].
    destruct (nth_error g (Z.to_nat m)) as [md|] eqn:E; [|discriminate].
    apply in_concat. exists md. split; eapply nth_error_In; eassumption.
Qed.

Lemma mapM_nested_total : forall A B (f : A -> res B) g, (forall a, In a (List.concat g) -> exists b, f a = Ok b) ->
  exists ms, mapM (mapM f) g = Ok ms.
Proof.
  intros A B f g H.
  assert (G : forall l, (forall a, In a l -> exists b, f a = Ok b) -> exists bs, mapM f l = Ok bs).
  { clear. induction l as [|a l IH]; intros H; [exists []; reflexivity|].
    destruct (H a (or_introl eq_refl)) as [b E]. destruct IH as [bs E']; [intros; apply H; right; assumption|].
    exists (b :: bs). cbn [mapM]. rewrite E. cbn [bind]. rewrite E'. reflexivity. }
  induction g as [|l g IH]; [exists []; reflexivity|]. cbn [mapM].
  destruct (G l) as [bs E]. { intros a Ha. apply H. cbn. apply in_or_app. left. exact Ha. }
  destruct IH as [ms E']. { intros a Ha. apply H. cbn. apply in_or_app. right. exact Ha. }
  rewrite E. cbn [bind]. rewrite E'. eexists. reflexivity.
Qed.

(** ** Extent *)

Lemma fold_min : forall l z, (forall x, In x (z :: l) -> zmin_list l z <= x) /\ In (zmin_list l z) (z :: l).
Proof.
  unfold zmin_list. induction l as [|a l IH]; intros z; cbn [fold_left].
  - split; [intros x [<-|[]]; lia|left; reflexivity].
  - destruct (IH (Z.min z a)) as [H1 H2]. split.
    + intros x [<-|[<-|Hx]].
      * specialize (H1 (Z.min z a) (or_introl eq_refl)). lia.
      * specialize (H1 (Z.min z a) (or_introl eq_refl)). lia.
      * apply H1. right. exact Hx.
    + destruct H2 as [H2|H2]; [|right; right; exact H2]. rewrite <- H2.
      destruct (Z.min_spec z a) as [[_ ->]|[_ ->]]; [left|right; left]; reflexivity.
Qed.

Lemma fold_max : forall l z, (forall x, In x (z :: l) -> x <= zmax_list l z) /\ In (zmax_list l z) (z :: l).
Proof.
  unfold zmax_list. induction l as [|a l IH]; intros z; cbn [fold_left].
  - split; [intros x [<-|[]]; lia|left; reflexivity].
  - destruct (IH (Z.max z a)) as [H1 H2]. split.
    + intros x [<-|[<-|Hx]].
      * specialize (H1 (Z.max z a) (or_introl eq_refl)). lia.
      * specialize (H1 (Z.max z a) (or_introl eq_refl)). lia.
      * apply H1. right. exact Hx.
    + destruct H2 as [H2|H2]; [|right; right; exact H2]. rewrite <- H2.
      destruct (Z.max_spec z a) as [[_ ->]|[_ ->]]; [right; left|left]; reflexivity.
Qed.

Definition block_ok (g : gfrag) : Prop :=
  g_opp g = (fst (g_corner g) + fst (g_dims g), snd (g_corner g) + snd (g_dims g)) /\ 0 < fst (g_dims g) /\ 0 < snd (g_dims g).

Lemma dimensions_spec : forall ms, List.concat ms <> [] -> (forall g, In g (List.concat ms) -> block_ok g) ->
  exists H W cy cx, snapped_dimensions ms = Ok ((H, W), (cy, cx)) /\
  (forall g, In g (List.concat ms) -> 0 <= fst (g_corner g) + cy /\ 0 <= snd (g_corner g) + cx /\
       fst (g_corner g) + cy + fst (g_dims g) <= H /\ snd (g_corner g) + cx + snd (g_dims g) <= W) /\
  (exists g, In g (List.concat ms) /\ fst (g_corner g) + cy = 0) /\
  (exists g, In g (List.concat ms) /\ snd (g_corner g) + cx = 0) /\
  (exists g, In g (List.concat ms) /\ fst (g_corner g) + cy + fst (g_dims g) = H) /\
  (exists g, In g (List.concat ms) /\ snd (g_corner g) + cx + snd (g_dims g) = W).
Proof.
  intros ms Hne Hok. unfold snapped_dimensions.
  destruct (flat_map (fun g => [g_corner g; g_opp g]) (List.concat ms)) as [|c cs] eqn:E.
  { destruct (List.concat ms); [congruence|discriminate]. }
  assert (M : forall p, In p (c :: cs) <-> exists g, In g (List.concat ms) /\ (p = g_corner g \/ p = g_opp g)).
  { intros p. rewrite <- E, in_flat_map. split; intros (g & H1 & H2); exists g; (split; [exact H1|]); cbn in *; intuition congruence. }
  assert (Mf : forall h : Z * Z -> Z, forall z, In z (h c :: map h cs) <-> exists g, In g (List.concat ms) /\ (z = h (g_corner g) \/ z = h (g_opp g))).
  { intros h z. change (h c :: map h cs) with (map h (c :: cs)). rewrite in_map_iff. split.
    - intros (p & <- & Hp). apply M in Hp. destruct Hp as (g & Hg & [-> | ->]); eauto.
    - intros (g & Hg & [-> | ->]); eexists; (split; [reflexivity|]); apply M; eauto. }
  destruct (fold_min (map fst cs) (fst c)) as [I1 I2]. destruct (fold_min (map snd cs) (snd c)) as [I3 I4].
  destruct (fold_max (map fst cs) (fst c)) as [A1 A2]. destruct (fold_max (map snd cs) (snd c)) as [A3 A4].
  set (miny := zmin_list (map fst cs) (fst c)) in *. set (minx := zmin_list (map snd cs) (snd c)) in *.
  set (maxy := zmax_list (map fst cs) (fst c)) in *. set (maxx := zmax_list (map snd cs) (snd c)) in *.
  exists (maxy - miny), (maxx - minx), (- miny), (- minx). split; [reflexivity|].
  assert (B : forall g, In g (List.concat ms) -> miny <= fst (g_corner g) /\ minx <= snd (g_corner g) /\
              fst (g_corner g) + fst (g_dims g) <= maxy /\ snd (g_corner g) + snd (g_dims g) <= maxx).
  { intros g Hg. destruct (Hok g Hg) as (Ho & P1 & P2).
    repeat split.
    - apply I1, Mf. eauto.
    - apply I3, Mf. eauto.
    - apply A1, Mf. exists g. split; [exact Hg|right; rewrite Ho; reflexivity].
    - apply A3, Mf. exists g. split; [exact Hg|right; rewrite Ho; reflexivity]. }
  split; [intros g Hg; specialize (B g Hg); lia|].
  apply Mf in I2, I4, A2, A4.
  split; [|split; [|split]].
  - destruct I2 as (g & Hg & Hz). exists g. split; [exact Hg|]. destruct (Hok g Hg) as (Ho & P1 & P2). specialize (B g Hg). rewrite Ho in Hz. cbn [fst] in Hz. lia.
  - destruct I4 as (g & Hg & Hz). exists g. split; [exact Hg|]. destruct (Hok g Hg) as (Ho & P1 & P2). specialize (B g Hg). rewrite Ho in Hz. cbn [snd] in Hz. lia.
  - destruct A2 as (g & Hg & Hz). exists g. split; [exact Hg|]. destruct (Hok g Hg) as (Ho & P1 & P2). specialize (B g Hg). rewrite Ho in Hz. cbn [fst] in Hz. lia.
  - destruct A4 as (g & Hg & Hz). exists g. split; [exact Hg|]. destruct (Hok g Hg) as (Ho & P1 & P2). specialize (B g Hg). rewrite Ho in Hz. cbn [snd] in Hz. lia.
Qed.

(** ** Assembly *)

Definition place_write {A} (d : detector) (centre : Z * Z) (data : Z -> Z -> Z -> A) (e : Z * (Z * gfrag)) (k : Z * Z) : option A :=
  let '(i, (j, g)) := e in
  let '(y, x) := k in
  let y0 := fst (g_corner g) + fst centre in
  let x0 := snd (g_corner g) + snd centre in
  if in_slice (y0, y0 + fst (g_dims g)) y && in_slice (x0, x0 + snd (g_dims g)) x
  then match nth_error (split_tiles d (data i)) (Z.to_nat j) with
       | Some a => Some (transform g a (y - y0) (x - x0))
       | None => None
       end
  else None.

Lemma place_writes : forall A d centre (data : Z -> Z -> Z -> A) i j g,
  0 <= j < n_tiles d -> g_dims g = (if g_swap g then (frag_fs d, frag_ss d) else (frag_ss d, frag_fs d)) ->
  writes (fun (o : image A) k => let '(y, x) := k in o y x) (place_write d centre data)
    (fun out e => place_tile d centre (split_tiles d (data (fst e))) out (snd e)) (i, (j, g)).
Proof.
  intros A d centre data i j g Hj Hd o. cbn [fst snd]. unfold place_tile, place_write, nth_res.
  destruct (nth_error (split_tiles d (data i)) (Z.to_nat j)) as [a|] eqn:E.
  2: { exfalso. apply nth_error_None in E. pose proof (split_tiles_length d (data i)). lia. }
  cbn [bind]. destruct (g_dims g) as [h w] eqn:Ed. rewrite Hd.
  assert (P : forall p, pair_eqb p p = true) by (intros []; unfold pair_eqb; cbn; rewrite !Z.eqb_refl; reflexivity).
  rewrite P. cbn [fst snd]. eexists. split; [reflexivity|]. intros [y x].
  replace (fst (if g_swap g then (frag_fs d, frag_ss d) else (frag_ss d, frag_fs d))) with h by (rewrite <- Hd; reflexivity).
  replace (snd (if g_swap g then (frag_fs d, frag_ss d) else (frag_ss d, frag_fs d))) with w by (rewrite <- Hd; reflexivity).
  destruct (in_slice _ y && in_slice _ x); reflexivity.
Qed.

Lemma foldM_ext_in : forall A S (f h : S -> A -> res S) l s, (forall x, In x l -> forall s, f s x = h s x) -> foldM f s l = foldM h s l.
Proof.
  induction l as [|a l IH]; intros s H; [reflexivity|]. cbn [foldM]. rewrite (H a (or_introl eq_refl)).
  destruct (h s a); cbn [bind]; [|reflexivity]. apply IH. intros x Hx. apply H. right. exact Hx.
Qed.

Lemma mapM_len : forall A B (f : A -> res B) l r, mapM f l = Ok r -> List.length r = List.length l.
Proof.
  induction l as [|a l IH]; intros r H; cbn [mapM] in H; [injection H as <-; reflexivity|].
  destruct (f a); [|discriminate]. cbn [bind] in H. destruct (mapM f l) eqn:E; [|discriminate]. injection H as <-.
  cbn. f_equal. apply IH. reflexivity.
Qed.

Lemma snappable_rounded : forall px g m t tl, snappable px g -> tile_at g m t = Some tl -> aligned (rounded px tl).
Proof. intros px g m t tl H E. destruct (H m t tl E) as (o & Ho & Ha). rewrite <- (snaps_unique Ho). exact Ha. Qed.

Lemma covers_iff : forall px d g m t s f y x, covers px d g m t s f y x <->
  exists tl, tile_at g m t = Some tl /\ in_tile d s f /\ cell (rounded px tl) s f = (y, x).
Proof.
  intros. split.
  - intros (tl & o & H1 & H2 & H3 & H4). exists tl. rewrite <- (snaps_unique H3). auto.
  - intros (tl & H1 & H2 & H3). exists tl, (rounded px tl). auto using rounded_snaps.
Qed.

Lemma frag_pos : forall d, 0 < frag_ss d /\ 0 < frag_fs d.
Proof. intros []; cbn; lia. Qed.

Section Assemble.
Variables (A : Type) (rs : Q) (d : detector) (g : geometry).
Let px := pixel_shape rs d.
Hypothesis Hfits : fits d g.
Hypothesis Hsnap : snappable px g.
Hypothesis Hne : List.concat g <> [].

Lemma snapped_modules : exists ms, mapM (mapM (snap px)) g = Ok ms /\
  (forall m t gf, at_ ms m t = Some gf <-> exists tl, tile_at g m t = Some tl /\ gf = gridded px tl) /\
  Z.of_nat (List.length ms) <= 16 /\ List.concat ms <> [] /\
  (forall gf, In gf (List.concat ms) -> block_ok gf).
Proof.
  destruct (@mapM_nested_total _ _ (snap px) g) as [ms E].
  { intros tl H. apply at_In_concat in H. destruct H as (m & t & H). exists (gridded px tl). apply snap_ok.
    eapply snappable_rounded; eassumption. }
  exists ms. split; [exact E|].
  assert (At : forall m t gf, at_ ms m t = Some gf <-> exists tl, tile_at g m t = Some tl /\ gf = gridded px tl).
  { intros m t gf. rewrite (mapM_nested_at E). split.
    - intros (tl & H1 & H2). exists tl. split; [exact H1|]. apply snap_inv in H2. tauto.
    - intros (tl & H1 & ->). exists tl. split; [exact H1|]. apply snap_ok. eapply snappable_rounded; eassumption. }
  split; [exact At|]. split.
  { rewrite (mapM_len E). apply Hfits. }
  split.
  - intros C. apply Hne. destruct (List.concat g) as [|tl l] eqn:Eg; [reflexivity|exfalso].
    assert (In tl (List.concat g)) by (rewrite Eg; left; reflexivity). apply at_In_concat in H. destruct H as (m & t & H).
    assert (In (gridded px tl) (List.concat ms)) by (apply at_In_concat; exists m, t; apply At; eauto).
    rewrite C in H0. destruct H0.
  - intros gf H. apply at_In_concat in H. destruct H as (m & t & H). apply At in H. destruct H as (tl & H & ->).
    destruct (fits_at Hfits H) as (_ & _ & S1 & S2). unfold gridded, block_ok.
    destruct (grid_shape (og_corner (rounded px tl)) (og_ss (rounded px tl)) (og_fs (rounded px tl)) (t_ss_px tl) (t_fs_px tl)) as [E1 E2].
    split; [exact E1|]. rewrite E2, S1, S2.
    destruct (frag_pos d). split; match goal with |- context [if ?b then _ else _] => destruct b end; assumption.
Qed.


Lemma assemble_spec : exists H W cy cx, output_shape rs d g = Ok (H, W) /\
  (forall m t s f y x, covers px d g m t s f y x -> 0 <= y + cy < H /\ 0 <= x + cx < W) /\
  (exists m t s f x, covers px d g m t s f (- cy) x) /\
  (exists m t s f y, covers px d g m t s f y (- cx)) /\
  (exists m t s f x, covers px d g m t s f (H - 1 - cy) x) /\
  (exists m t s f y, covers px d g m t s f y (W - 1 - cx)) /\
  forall (nan : A) (data : Z -> Z -> Z -> A) (out : option (out_arr A)),
   (forall o, out = Some o -> oa_shape o = (H, W) /\ oa_cast o = true) ->
   exists img, position_modules_fast nan rs d g (n_modules d, mod_ss d, mod_fs d) data out = Ok (img, (cy, cx)) /\
   forall y x,
     (exists m t s f, covers px d g m t s f (y - cy) (x - cx) /\
        (forall m' t' s' f', covers px d g m' t' s' f' (y - cy) (x - cx) -> (m' = m /\ t' = t) \/ after m t m' t') /\
        img y x = data m (fst (data_pixel d t s f)) (snd (data_pixel d t s f))) \/
     ((forall m t s f, ~ covers px d g m t s f (y - cy) (x - cx)) /\ img y x = o_start nan out y x).
Proof.
  destruct snapped_modules as (ms & E & At & Lms & Nms & Bok).
  destruct (dimensions_spec Nms Bok) as (H & W & cy & cx & Ed & In1 & T1 & T2 & T3 & T4).
  assert (Sn : snap_geometry rs d g = Ok (mk_snapped ms (H, W) (cy, cx))).
  { unfold snap_geometry. fold px. rewrite E. cbn [bind]. rewrite Ed. reflexivity. }
  assert (Cin : forall m t tl s f, tile_at g m t = Some tl -> in_tile d s f ->
     let gf := gridded px tl in let '(y, x) := cell (rounded px tl) s f in
     0 <= y - fst (g_corner gf) < fst (g_dims gf) /\ 0 <= x - snd (g_corner gf) < snd (g_dims gf) /\
     forall B (a : Z -> Z -> B), transform gf a (y - fst (g_corner gf)) (x - snd (g_corner gf)) = a s f).
  { intros m t tl s f Ht [Hs Hf]. destruct (fits_at Hfits Ht) as (_ & _ & S1 & S2).
    assert (Ha : aligned (rounded px tl)) by (eapply snappable_rounded; eassumption).
    cbv zeta. unfold gridded. cbv zeta. rewrite S1, S2.
    pose proof (fun B => @grid_cell B (rounded px tl) (frag_ss d) (frag_fs d) s f) as G. cbv zeta in G.
    destruct (cell (rounded px tl) s f) as [y x].
    destruct (G Z (fun _ _ => 0) Ha Hs Hf) as (G1 & G2 & _). split; [exact G1|]. split; [exact G2|].
    intros B a. destruct (G B a Ha Hs Hf) as (_ & _ & G3). exact G3. }
  assert (Con : forall m t tl y x, tile_at g m t = Some tl -> let gf := gridded px tl in
     0 <= y - fst (g_corner gf) < fst (g_dims gf) -> 0 <= x - snd (g_corner gf) < snd (g_dims gf) ->
     exists s f, in_tile d s f /\ cell (rounded px tl) s f = (y, x)).
  { intros m t tl y x Ht gf Hy Hx. destruct (fits_at Hfits Ht) as (_ & _ & S1 & S2).
    unfold gf, gridded in *. cbv zeta in Hy, Hx. rewrite S1, S2 in Hy, Hx.
    destruct (@grid_onto (rounded px tl) (frag_ss d) (frag_fs d) y x (snappable_rounded Hsnap Ht) Hy Hx) as (s & f & Hs & Hf & Ec).
    exists s, f. split; [split; assumption|exact Ec]. }
  exists H, W, cy, cx. split; [unfold output_shape; rewrite Sn; reflexivity|]. split.
  { intros m t s f y x Hc. apply covers_iff in Hc. destruct Hc as (tl & Ht & Hi & Ec).
    specialize (Cin m t tl s f Ht Hi). cbv zeta in Cin. rewrite Ec in Cin. destruct Cin as (C1 & C2 & _).
    assert (I : In (gridded px tl) (List.concat ms)) by (apply at_In_concat; exists m, t; apply At; eauto).
    specialize (In1 _ I). lia. }
  assert (Tight : forall gf (P : Z -> Z -> Prop), In gf (List.concat ms) ->
     (exists y x, 0 <= y - fst (g_corner gf) < fst (g_dims gf) /\ 0 <= x - snd (g_corner gf) < snd (g_dims gf) /\ P y x) ->
     exists m t s f y x, covers px d g m t s f y x /\ P y x).
  { intros gf P Hg (y & x & Hy & Hx & HP). apply at_In_concat in Hg. destruct Hg as (m & t & Hg). apply At in Hg.
    destruct Hg as (tl & Ht & ->). destruct (Con m t tl y x Ht Hy Hx) as (s & f & Hi & Ec).
    exists m, t, s, f, y, x. split; [apply covers_iff; eauto|exact HP]. }
  split.
  { destruct T1 as (gf & Hg & Hz). destruct (Bok gf Hg) as (_ & P1 & P2).
    destruct (Tight gf (fun y _ => y = - cy) Hg) as (m & t & s & f & y & x & Hc & ->); [|exists m, t, s, f, x; exact Hc].
    exists (- cy), (snd (g_corner gf)). lia. }
  split.
  { destruct T2 as (gf & Hg & Hz). destruct (Bok gf Hg) as (_ & P1 & P2).
    destruct (Tight gf (fun _ x => x = - cx) Hg) as (m & t & s & f & y & x & Hc & ->); [|exists m, t, s, f, y; exact Hc].
    exists (fst (g_corner gf)), (- cx). lia. }
  split.
  { destruct T3 as (gf & Hg & Hz). destruct (Bok gf Hg) as (_ & P1 & P2).
    destruct (Tight gf (fun y _ => y = H - 1 - cy) Hg) as (m & t & s & f & y & x & Hc & ->); [|exists m, t, s, f, x; exact Hc].
    exists (H - 1 - cy), (snd (g_corner gf)). lia. }
  split.
  { destruct T4 as (gf & Hg & Hz). destruct (Bok gf Hg) as (_ & P1 & P2).
    destruct (Tight gf (fun _ x => x = W - 1 - cx) Hg) as (m & t & s & f & y & x & Hc & ->); [|exists m, t, s, f, y; exact Hc].
    exists (fst (g_corner gf)), (W - 1 - cx). lia. }
  intros nan data out Hout.
  destruct (@foldM_writes (image A) (Z * (Z * gfrag)) (Z * Z) A
              (fun o k => let '(y, x) := k in o y x) (place_write d (cy, cx) data)
              (fun out e => place_tile d (cy, cx) (split_tiles d (data (fst e))) out (snd e)) (entries ms) (o_start nan out)) as (img & Ei & Wr).
  { intros (i & j & gf) He. apply entries_In in He. apply At in He. destruct He as (tl & Ht & ->).
    destruct (fits_at Hfits Ht) as (Hm & Hj & S1 & S2). apply place_writes; [exact Hj|].
    unfold gridded. cbv zeta. rewrite (proj2 (grid_shape _ _ _ _ _)), S1, S2. reflexivity. }
  exists img. split.
  { unfold position_modules_fast. rewrite Sn. cbn [bind]. unfold position_modules. rewrite !Z.eqb_refl. cbn [andb negb].
    assert (Eo : match out with
               | None => Ok (fun _ _ => nan)
               | Some o => if negb (pair_eqb (oa_shape o) (sn_size (mk_snapped ms (H, W) (cy, cx)))) then Err EAssertionError
                           else if negb (oa_cast o) then Err ETypeError else Ok (oa_at o)
               end = Ok (o_start nan out)).
    { destruct out as [o|]; [|reflexivity]. destruct (Hout o eq_refl) as [-> ->]. cbn [sn_size]. unfold pair_eqb. cbn [fst snd].
      rewrite !Z.eqb_refl. reflexivity. }
    rewrite Eo. cbn [bind sn_modules sn_centre].
    rewrite (@foldM_ext_in _ _ _ (fun acc im => foldM (place_tile d (cy, cx) (split_tiles d (data (fst im)))) acc (zenum (snd im)))).
    2: { intros [i md] Hi s. apply zenum_In in Hi. destruct Hi as [Hi Hn]. cbn [fst snd].
         assert (Z.to_nat i < List.length ms)%nat by (apply nth_error_Some; congruence).
         assert (L : (i <? n_modules d) = true) by (apply Z.ltb_lt; unfold n_modules; lia). rewrite L. reflexivity. }
    rewrite (@foldM_entries _ _ (fun i acc jg => place_tile d (cy, cx) (split_tiles d (data i)) acc jg)).
    rewrite Ei. reflexivity. }
  assert (Key : forall m t tl s f y x, tile_at g m t = Some tl -> in_tile d s f -> cell (rounded px tl) s f = (y - cy, x - cx) ->
     place_write d (cy, cx) data (m, (t, gridded px tl)) (y, x) = Some (data m (fst (data_pixel d t s f)) (snd (data_pixel d t s f)))).
  { intros m t tl s f y x Ht Hi Ec. specialize (Cin m t tl s f Ht Hi). cbv zeta in Cin. rewrite Ec in Cin. destruct Cin as (C1 & C2 & C3).
    destruct (fits_at Hfits Ht) as (Hm & Hj & _). unfold place_write. cbn [fst snd].
    unfold in_slice. cbn [fst snd]. rewrite !(proj2 (Z.leb_le _ _)), !(proj2 (Z.ltb_lt _ _)) by lia. cbn [andb].
    destruct (nth_error (split_tiles d (data m)) (Z.to_nat t)) as [a|] eqn:Ea.
    2: { exfalso. apply nth_error_None in Ea. pose proof (split_tiles_length d (data m)). lia. }
    replace (y - (fst (g_corner (gridded px tl)) + cy)) with (y - cy - fst (g_corner (gridded px tl))) by lia.
    replace (x - (snd (g_corner (gridded px tl)) + cx)) with (x - cx - snd (g_corner (gridded px tl))) by lia.
    rewrite C3. f_equal. apply split_tiles_spec; [exact Ea|lia]. }
  assert (Key' : forall m t tl y x v, tile_at g m t = Some tl -> place_write d (cy, cx) data (m, (t, gridded px tl)) (y, x) = Some v ->
     exists s f, in_tile d s f /\ cell (rounded px tl) s f = (y - cy, x - cx)).
  { intros m t tl y x v Ht Hw. unfold place_write in Hw. cbn [fst snd] in Hw.
    destruct (in_slice _ y && in_slice _ x) eqn:Es; [|discriminate].
    unfold in_slice in Es. cbn [fst snd] in Es. rewrite !andb_true_iff, !Z.leb_le, !Z.ltb_lt in Es.
    apply (Con m t tl (y - cy) (x - cx) Ht); lia. }
  intros y x. destruct (Wr (y, x)) as [(l1 & (m & t & gf) & l2 & El & Hw & Hn)|[Hn He]].
  - left. assert (Hin : In (m, (t, gf)) (entries ms)) by (rewrite El; apply in_or_app; right; left; reflexivity).
    pose proof Hin as Hin2. apply entries_In in Hin2. apply At in Hin2. destruct Hin2 as (tl & Ht & ->).
    destruct (Key' _ _ _ _ _ _ Ht Hw) as (s & f & Hi & Ec).
    exists m, t, s, f. split; [apply covers_iff; eauto|]. split.
    + intros m' t' s' f' Hc. apply covers_iff in Hc. destruct Hc as (tl' & Ht' & Hi' & Ec').
      assert (Hin' : In (m', (t', gridded px tl')) (entries ms)) by (apply entries_In; apply At; eauto).
      pose proof (entries_sorted ms) as Srt. rewrite El in Srt, Hin'.
      destruct (sorted_split Srt Hin') as [Eq|[Hin2|Hr]].
      * injection Eq as -> -> _. left. auto.
      * exfalso. specialize (Hn _ Hin2). rewrite (Key _ _ _ _ _ _ _ Ht' Hi' Ec') in Hn. discriminate.
      * right. exact Hr.
    + rewrite (Key _ _ _ _ _ _ _ Ht Hi Ec) in Hw. congruence.
  - right. split; [|exact He]. intros m t s f Hc. apply covers_iff in Hc. destruct Hc as (tl & Ht & Hi & Ec).
    assert (Hin : In (m, (t, gridded px tl)) (entries ms)) by (apply entries_In; apply At; eauto).
    specialize (Hn _ Hin). rewrite (Key _ _ _ _ _ _ _ Ht Hi Ec) in Hn. discriminate.
Qed.
End Assemble.

(** ** Errors *)

Lemma mapM_nested_err : forall A B (f : A -> res B) g e, mapM (mapM f) g = Err e -> exists a, In a (List.concat g) /\ f a = Err e.
Proof.
  intros A B f g e.
  assert (G : forall l, mapM f l = Err e -> exists a, In a l /\ f a = Err e).
  { induction l as [|a l IH]; intros H; cbn [mapM] in H; [discriminate|]. destruct (f a) eqn:E; cbn [bind] in H.
    - destruct (mapM f l) eqn:E2; [discriminate|]. cbn [bind] in H. injection H as ->.
      destruct IH as (a' & H1 & H2); [reflexivity|]. exists a'. split; [right; exact H1|exact H2].
    - injection H as ->. exists a. split; [left; reflexivity|exact E]. }
  induction g as [|l g IH]; intros H; cbn [mapM] in H; [discriminate|]. destruct (mapM f l) eqn:E; cbn [bind] in H.
  - destruct (mapM (mapM f) g) eqn:E2; [discriminate|]. cbn [bind] in H. injection H as ->.
    destruct IH as (a' & H1 & H2); [reflexivity|]. exists a'. split; [cbn; apply in_or_app; right; exact H1|exact H2].
  - injection H as ->. destruct (G l E) as (a & H1 & H2). exists a. split; [cbn; apply in_or_app; left; exact H1|exact H2].
Qed.

Lemma not_snappable : forall rs d g m t tl, tile_at g m t = Some tl ->
  (forall o, snaps_to (pixel_shape rs d) tl o -> ~ aligned o) ->
  snap_geometry rs d g = Err EAssertionError.
Proof.
  intros rs d g m t tl Ht Hn. unfold snap_geometry.
  destruct (mapM (mapM (snap (pixel_shape rs d))) g) as [ms|e] eqn:E.
  - exfalso. assert (Hin : In tl (List.concat g)) by (apply at_In_concat; eauto).
    assert (C : forall a, In a (List.concat g) -> exists b, snap (pixel_shape rs d) a = Ok b).
    { clear - E. revert ms E. induction g as [|l g IH]; intros ms E a Ha; [destruct Ha|]. cbn [mapM] in E.
      destruct (mapM (snap (pixel_shape rs d)) l) as [bs|] eqn:E1; [|discriminate]. cbn [bind] in E.
      destruct (mapM (mapM (snap (pixel_shape rs d))) g) as [ms'|] eqn:E2; [|discriminate].
      cbn in Ha. apply in_app_or in Ha. destruct Ha as [Ha|Ha]; [|eapply IH; eauto].
      clear - E1 Ha. revert bs E1. induction l as [|x l IH]; intros bs E1; [destruct Ha|]. cbn [mapM] in E1.
      destruct (snap (pixel_shape rs d) x) eqn:Ex; [|discriminate]. cbn [bind] in E1.
      destruct (mapM (snap (pixel_shape rs d)) l) eqn:El; [|discriminate].
      destruct Ha as [<-|Ha]; [eauto|eapply IH; eauto]. }
    destruct (C tl Hin) as [b Hb]. apply snap_inv in Hb. destruct Hb as [_ Hb].
    apply (Hn _ (rounded_snaps _ _)). exact Hb.
  - destruct (mapM_nested_err E) as (a & _ & Ha). apply snap_err in Ha. destruct Ha as [-> _]. reflexivity.
Qed.
