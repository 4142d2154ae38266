(** Assembling several frames at once does the same with each frame. *)
From Coq Require Import QArith.
From Verif Require Import Base L_Base M_Geom M_GeomNd L_Geom2.
Set Implicit Arguments.
Unset Strict Implicit.
Local Open Scope Z_scope.
Local Open Scope list_scope.

Lemma lastn_app {B} (k l : list B) n : List.length l = n -> lastn n (k ++ l) = l.
Proof. intros <-. unfold lastn. rewrite app_length, Nat.add_sub, skipn_app, skipn_all, Nat.sub_diag. reflexivity. Qed.
Lemma uptolast_app {B} (k l : list B) n : List.length l = n -> uptolast n (k ++ l) = k.
Proof. intros <-. unfold uptolast. rewrite app_length, Nat.add_sub, firstn_app, firstn_all, Nat.sub_diag. cbn. apply app_nil_r. Qed.
Lemma lastn_split {B} n (l : list B) : uptolast n l ++ lastn n l = l.
Proof. apply firstn_skipn. Qed.
Lemma zl_eqb_eq a : forall b, zl_eqb a b = true <-> a = b.
Proof.
  induction a as [|x a IH]; intros [|y b]; cbn; split; intros H; try discriminate; try reflexivity.
  - apply andb_true_iff in H as [H1 H2]. apply Z.eqb_eq in H1. apply IH in H2. congruence.
  - injection H as -> ->. rewrite Z.eqb_refl. now apply IH.
Qed.

Section Frames.
Context {A : Type}.
Variables (lead k : list Z).

(** Frame [k] of an array, and what it is to be. *)
Definition is_frame (h w : Z) (a : ndz A) (f : Z -> Z -> A) : Prop :=
  nz_shape a = lead ++ [h; w] /\ forall y x, nz_at a (k ++ [y; x]) = f y x.

Lemma on_last2_frame h w a f h' w' u : is_frame h w a f -> is_frame h' w' (on_last2 h' w' u a) (fun y x => f (fst (u y x)) (snd (u y x))).
Proof.
  intros [E F]. split; cbn [on_last2 nz_shape nz_at].
  - rewrite E, uptolast_app by reflexivity. reflexivity.
  - intros y x. rewrite lastn_app, uptolast_app by reflexivity. apply F.
Qed.
Lemma shape2 h w a f : is_frame h w a f -> lastn 2 (nz_shape a) = [h; w] /\ uptolast 2 (nz_shape a) = lead.
Proof. intros [E _]. rewrite E, lastn_app, uptolast_app by reflexivity. auto. Qed.

Lemma Forall2_map_seq {B C} (R : B -> C -> Prop) (f : nat -> B) (g : nat -> C) l : (forall i, R (f i) (g i)) -> Forall2 R (map f l) (map g l).
Proof. intros H. induction l; cbn; constructor; auto. Qed.

Lemma split2_frame n h w a f : is_frame h w a f -> (h mod Z.of_nat n = 0) ->
  exists l, nd_split2 n a = Ok l /\ Forall2 (is_frame (h / Z.of_nat n) w) l (np_split0 n h f).
Proof.
  intros Ha Hm. unfold nd_split2. rewrite (proj1 (shape2 Ha)), Hm. cbn [Z.eqb]. eexists. split; [reflexivity|].
  unfold np_split0. apply Forall2_map_seq. intros i. exact (on_last2_frame _ _ (fun s f0 => (Z.of_nat i * (h / Z.of_nat n) + s, f0)) Ha).
Qed.
Lemma split1_frame n h w a f : is_frame h w a f -> (w mod Z.of_nat n = 0) ->
  exists l, nd_split1 n a = Ok l /\ Forall2 (is_frame h (w / Z.of_nat n)) l (np_split1 n w f).
Proof.
  intros Ha Hm. unfold nd_split1. rewrite (proj1 (shape2 Ha)), Hm. cbn [Z.eqb]. eexists. split; [reflexivity|].
  unfold np_split1. apply Forall2_map_seq. intros i. exact (on_last2_frame _ _ (fun s f0 => (s, Z.of_nat i * (w / Z.of_nat n) + f0)) Ha).
Qed.
Lemma Forall2_rev {B C} (R : B -> C -> Prop) l l' : Forall2 R l l' -> Forall2 R (rev l) (rev l').
Proof. induction 1; cbn; [constructor|]. apply Forall2_app; [assumption|]. constructor; [assumption|constructor]. Qed.

Lemma split_tiles_frame d a f : is_frame (mod_ss d) (mod_fs d) a f ->
  exists l, nd_split_tiles d a = Ok l /\ Forall2 (is_frame (frag_ss d) (frag_fs d)) l (split_tiles d f).
Proof.
  intros Ha. destruct d; cbn [nd_split_tiles split_tiles].
  - exact (@split2_frame 8 _ _ _ _ Ha eq_refl).
  - destruct (@split1_frame 2 _ _ _ _ Ha eq_refl) as (l & -> & F). cbn [bind]. unfold np_split1 in *. cbn [seq map] in *.
    inversion F as [|h1 f1 l1 t1 F1 G1]; subst. inversion G1 as [|h2 f2 l2 t2 F2 G2]; subst. inversion G2; subst.
    change (mod_fs LPD / Z.of_nat 2) with 128 in *.
    destruct (@split2_frame 8 _ _ _ _ F1 eq_refl) as (p & -> & P). destruct (@split2_frame 8 _ _ _ _ F2 eq_refl) as (q & -> & Q). cbn [bind].
    eexists. split; [reflexivity|]. apply Forall2_app; [apply Forall2_rev; exact P|exact Q].
  - exact (@split1_frame 2 _ _ _ _ Ha eq_refl).
Qed.

Lemma flip_frame p q h w a f : is_frame h w a f -> exists b, nd_flip p q a = Ok b /\ is_frame h w b (fun y x => f (flip p h y) (flip q w x)).
Proof.
  intros Ha. unfold nd_flip. rewrite (proj1 (shape2 Ha)). eexists. split; [reflexivity|].
  exact (on_last2_frame h w (fun y x => (flip p h y, flip q w x)) Ha).
Qed.
Lemma swap_frame h w a f : is_frame h w a f -> exists b, nd_swap a = Ok b /\ is_frame w h b (fun y x => f x y).
Proof.
  intros Ha. unfold nd_swap. rewrite (proj1 (shape2 Ha)). eexists. split; [reflexivity|].
  exact (on_last2_frame w h (fun y x => (x, y)) Ha).
Qed.
Lemma transform_frame g h w a f : is_frame h w a f ->
  exists b f', nd_transform g a = Ok b /\ is_frame (if g_swap g then w else h) (if g_swap g then h else w) b f' /\
    (g_dims g = (if g_swap g then (w, h) else (h, w)) -> forall y x, f' y x = transform g f y x).
Proof.
  intros Ha. unfold nd_transform, transform. destruct (g_swap g).
  - destruct (swap_frame Ha) as (b & -> & Hb). cbn [bind]. destruct (flip_frame (g_fs_order g) (g_ss_order g) Hb) as (c & -> & Hc).
    eexists _, _. split; [reflexivity|]. split; [exact Hc|]. intros ->. reflexivity.
  - destruct (flip_frame (g_ss_order g) (g_fs_order g) Ha) as (c & -> & Hc).
    eexists _, _. split; [reflexivity|]. split; [exact Hc|]. intros ->. reflexivity.
Qed.

Lemma bound_in n i : 0 <= i <= n -> bound n i = i.
Proof. intros H. unfold bound. destruct (Z.ltb_spec i 0); lia. Qed.

Definition agree {B C} (R : B -> C -> Prop) (x : res B) (y : res C) : Prop :=
  match x, y with Ok b, Ok c => R b c | Err e, Err e' => e = e' | _, _ => False end.

Lemma nth_res_agree {B C} (R : B -> C -> Prop) l l' i : Forall2 R l l' -> agree R (nth_res l i) (nth_res l' i).
Proof.
  intros H. unfold nth_res. revert i. induction H as [|x y l l' Hx _ IH]; intros [|i]; cbn; try reflexivity; [exact Hx|apply IH].
Qed.
Lemma foldM_agree {B C E} (R : B -> C -> Prop) (f : B -> E -> res B) (g : C -> E -> res C) l :
  (forall b c e, In e l -> R b c -> agree R (f b e) (g c e)) -> forall b c, R b c -> agree R (foldM f b l) (foldM g c l).
Proof.
  induction l as [|e l IH]; intros H b c Hb; cbn [foldM]; [exact Hb|].
  assert (X := H b c e (or_introl eq_refl) Hb). destruct (f b e) as [b'|], (g c e) as [c'|]; cbn in X; try contradiction; cbn [bind]; [|exact X].
  apply IH; [|exact X]. intros. apply H; [now right|assumption].
Qed.

(** The blocks lie inside the image. *)
Definition inside_image (H W : Z) (centre : Z * Z) (g : gfrag) : Prop :=
  0 <= fst (g_corner g) + fst centre <= H /\ 0 <= fst (g_corner g) + fst centre + fst (g_dims g) <= H /\
  0 <= snd (g_corner g) + snd centre <= W /\ 0 <= snd (g_corner g) + snd centre + snd (g_dims g) <= W.

Lemma frag_pos d : 0 < frag_ss d /\ 0 < frag_fs d.
Proof. destruct d; cbn; lia. Qed.

Lemma place_frame d centre H W tiles tiles' out img j g :
  Forall2 (is_frame (frag_ss d) (frag_fs d)) tiles tiles' -> inside_image H W centre g -> is_frame H W out img ->
  agree (is_frame H W) (nd_place centre tiles out (j, g)) (place_tile d centre tiles' img (j, g)).
Proof.
  intros Ht (I1 & I2 & I3 & I4) Ho. unfold nd_place, place_tile. assert (N := nth_res_agree (Z.to_nat j) Ht).
  destruct (nth_res tiles (Z.to_nat j)) as [t|], (nth_res tiles' (Z.to_nat j)) as [t'|]; cbn in N; try contradiction; cbn [bind]; [|exact N].
  destruct (transform_frame g N) as (b & f' & -> & Hb & Hf). destruct (g_dims g) as [h w] eqn:Ed. cbn [fst snd bind] in *.
  destruct (shape2 Ho) as [S1 S2]. unfold nd_assign. rewrite S1, S2. cbn [fst snd].
  rewrite !bound_in by assumption.
  set (y0 := fst (g_corner g) + fst centre) in *. set (x0 := snd (g_corner g) + snd centre) in *.
  replace (y0 + h - y0) with h by lia. replace (x0 + w - x0) with w by lia.
  destruct (frag_pos d) as [P1 P2].
  assert (Q : zl_eqb (nz_shape b) (lead ++ [Z.max 0 h; Z.max 0 w]) = pair_eqb (h, w) (if g_swap g then (frag_fs d, frag_ss d) else (frag_ss d, frag_fs d))).
  { apply eq_true_iff_eq. rewrite zl_eqb_eq, (proj1 Hb). unfold pair_eqb. rewrite andb_true_iff, !Z.eqb_eq. cbn [fst snd].
    destruct (g_swap g); cbn [fst snd]; split; [|intros [-> ->]; now rewrite !Z.max_r by lia| |intros [-> ->]; now rewrite !Z.max_r by lia];
      intros X; apply app_inv_head in X; injection X; lia. }
  rewrite Q. destruct (pair_eqb (h, w) _) eqn:P; [|reflexivity]. cbn [agree].
  assert (D : g_dims g = if g_swap g then (frag_fs d, frag_ss d) else (frag_ss d, frag_fs d)).
  { rewrite Ed. unfold pair_eqb in P. apply andb_true_iff in P as [P3 P4]. apply Z.eqb_eq in P3. apply Z.eqb_eq in P4. cbn [fst snd] in *. destruct (g_swap g); cbn in *; congruence. }
  split; [exact (proj1 Ho)|]. intros y x. cbn [nz_at]. rewrite lastn_app, uptolast_app by reflexivity.
  destruct (in_slice (y0, y0 + h) y && in_slice (x0, x0 + w) x); [|apply (proj2 Ho)].
  rewrite (proj2 Hb). apply Hf. rewrite <- Ed. exact D.
Qed.
End Frames.

Lemma snapped_inside ms H W cy cx : snapped_dimensions ms = Ok ((H, W), (cy, cx)) ->
  (forall g, In g (List.concat ms) -> g_opp g = (fst (g_corner g) + fst (g_dims g), snd (g_corner g) + snd (g_dims g))) ->
  forall g, In g (List.concat ms) -> inside_image H W (cy, cx) g.
Proof.
  intros E Ho g Hg. unfold snapped_dimensions in E.
  destruct (flat_map (fun g => [g_corner g; g_opp g]) (List.concat ms)) as [|c cs] eqn:El; [discriminate|]. injection E as <- <- <- <-.
  assert (M : forall p, p = g_corner g \/ p = g_opp g -> In p (c :: cs)).
  { intros p Hp. rewrite <- El. apply in_flat_map. exists g. split; [assumption|]. cbn. intuition congruence. }
  assert (M2 : forall (h : Z * Z -> Z) p, p = g_corner g \/ p = g_opp g -> In (h p) (h c :: map h cs)).
  { intros h p Hp. change (h c :: map h cs) with (map h (c :: cs)). apply in_map. auto. }
  specialize (Ho g Hg).
  assert (Y1 := proj1 (fold_min (map fst cs) (fst c)) _ (M2 fst _ (or_introl eq_refl))).
  assert (Y2 := proj1 (fold_min (map fst cs) (fst c)) _ (M2 fst _ (or_intror eq_refl))).
  assert (Y3 := proj1 (fold_max (map fst cs) (fst c)) _ (M2 fst _ (or_introl eq_refl))).
  assert (Y4 := proj1 (fold_max (map fst cs) (fst c)) _ (M2 fst _ (or_intror eq_refl))).
  assert (X1 := proj1 (fold_min (map snd cs) (snd c)) _ (M2 snd _ (or_introl eq_refl))).
  assert (X2 := proj1 (fold_min (map snd cs) (snd c)) _ (M2 snd _ (or_intror eq_refl))).
  assert (X3 := proj1 (fold_max (map snd cs) (snd c)) _ (M2 snd _ (or_introl eq_refl))).
  assert (X4 := proj1 (fold_max (map snd cs) (snd c)) _ (M2 snd _ (or_intror eq_refl))).
  rewrite Ho in *. cbn [fst snd] in *. unfold inside_image. cbn [fst snd]. lia.
Qed.

Lemma mapM_In {B C} (f : B -> res C) l : forall r y, mapM f l = Ok r -> In y r -> exists x, In x l /\ f x = Ok y.
Proof.
  induction l as [|x l IH]; intros r y E Hy; cbn [mapM] in E; [injection E as <-; destruct Hy|].
  destruct (f x) as [z|] eqn:Ez; [|discriminate]. cbn [bind] in E. destruct (mapM f l) as [r'|]; [|discriminate]. injection E as <-.
  destruct Hy as [<-|Hy]; [exists x; split; [now left|assumption]|]. destruct (IH _ _ eq_refl Hy) as (x' & H1 & H2). exists x'. split; [now right|assumption].
Qed.
Lemma snap_opp px t g : snap px t = Ok g -> g_opp g = (fst (g_corner g) + fst (g_dims g), snd (g_corner g) + snd (g_dims g)).
Proof.
  unfold snap. destruct (axis_aligned _ _); [|discriminate]. intros E. injection E as <-. unfold mk_grid. destruct (fst _ =? 0); reflexivity.
Qed.
Lemma snapped_geometry_inside rs d g sn : snap_geometry rs d g = Ok sn ->
  forall ms gf, In ms (sn_modules sn) -> In gf ms -> inside_image (fst (sn_size sn)) (snd (sn_size sn)) (sn_centre sn) gf.
Proof.
  intros E ms gf Hm Hg. unfold snap_geometry in E. destruct (mapM _ g) as [l|] eqn:El; [|discriminate]. cbn [bind] in E.
  destruct (snapped_dimensions l) as [[[H W] [cy cx]]|] eqn:Ed; [|discriminate]. injection E as <-. cbn in Hm |- *.
  eapply snapped_inside; [exact Ed| |apply in_concat; eauto].
  intros g1 I1. apply in_concat in I1 as (m1 & I1 & I2). destruct (mapM_In El I1) as (x & _ & Ex). destruct (mapM_In Ex I2) as (t & _ & Et). exact (snap_opp Et).
Qed.

Lemma zenum_In {B} (l : list B) i x : In (i, x) (zenum l) -> 0 <= i < Z.of_nat (List.length l) /\ In x l.
Proof.
  unfold zenum. intros H. assert (H1 := in_combine_l _ _ _ _ H). assert (H2 := in_combine_r _ _ _ _ H). split; [|assumption].
  apply in_map_iff in H1 as (j & <- & H1). apply in_seq in H1. lia.
Qed.

Section Result.
Context {A : Type}.
Variables (nan : A) (rs : Q) (d : detector) (g : geometry).

Definition frame_at (a : ndz A) (k : list Z) : Z -> Z -> Z -> A := fun m s f => nz_at a (k ++ [m; s; f]).
(** Frame [k] of the array given as out. *)
Definition out_frame (k : list Z) (sn : snapped) (out : option (ndz A * bool)) : option (out_arr A) :=
  match out with None => None | Some (o, c) => Some (mk_out (sn_size sn) c (fun y x => nz_at o (k ++ [y; x]))) end.

Lemma module_frame lead k data i : nz_shape data = lead ++ [n_modules d; mod_ss d; mod_fs d] -> i < n_modules d ->
  exists m, nd_module i data = Ok m /\ is_frame lead k (mod_ss d) (mod_fs d) m (frame_at data k i).
Proof.
  intros E Hi. unfold nd_module. rewrite E, lastn_app by reflexivity. destruct (Z.ltb_spec i (n_modules d)); [|lia].
  eexists. split; [reflexivity|]. split; cbn [nz_shape nz_at].
  - now rewrite uptolast_app by reflexivity.
  - intros y x. now rewrite lastn_app, uptolast_app by reflexivity.
Qed.

Lemma position_frames data out lead k : nz_shape data = lead ++ [n_modules d; mod_ss d; mod_fs d] ->
  forall sn, snap_geometry rs d g = Ok sn ->
  (forall o c, out = Some (o, c) -> nz_shape o = lead ++ [fst (sn_size sn); snd (sn_size sn)]) ->
  agree (fun a b => snd a = snd b /\ is_frame lead k (fst (sn_size sn)) (snd (sn_size sn)) (fst a) (fst b))
    (nd_position_modules_fast nan rs d g data out)
    (position_modules_fast nan rs d g (n_modules d, mod_ss d, mod_fs d) (frame_at data k) (out_frame k sn out)).
Proof.
  intros E sn Es Ho. unfold nd_position_modules_fast, position_modules_fast. rewrite Es. cbn [bind].
  unfold nd_position_modules, position_modules. rewrite E, lastn_app, uptolast_app by reflexivity. rewrite !Z.eqb_refl.
  rewrite (proj2 (zl_eqb_eq _ _) eq_refl). cbn [negb andb].
  match goal with |- agree _ (let* o0 := ?a in _) (let* o1 := ?b in _) => assert (S0 : agree (is_frame lead k (fst (sn_size sn)) (snd (sn_size sn))) a b) end.
  { destruct out as [[o c]|]; cbn [out_frame].
    - rewrite (proj2 (zl_eqb_eq _ _) (Ho o c eq_refl)). cbn [oa_shape oa_cast oa_at]. unfold pair_eqb. rewrite !Z.eqb_refl. cbn [negb andb].
      destruct c; cbn [negb]; [|reflexivity]. split; [exact (Ho o true eq_refl)|reflexivity].
    - split; [reflexivity|reflexivity]. }
  match goal with |- agree _ (let* o0 := ?a in _) (let* o1 := ?b in _) => destruct a as [o0|], b as [o1|] end; cbn in S0; try contradiction; cbn [bind]; [|exact S0].
  match goal with |- agree _ (let* o := foldM ?F o0 ?l in _) (let* p := foldM ?G o1 ?l in _) =>
    assert (S1 : agree (is_frame lead k (fst (sn_size sn)) (snd (sn_size sn))) (foldM F o0 l) (foldM G o1 l)) end.
  { apply foldM_agree; [|exact S0]. intros b c [i ms] Hin Hb. cbn [fst snd]. apply zenum_In in Hin as [Hi Hm].
    destruct (Z.ltb_spec i (n_modules d)) as [Hl|Hl]; cbn [negb].
    - destruct (@module_frame lead k data i E Hl) as (m & -> & Hf). cbn [bind].
      destruct (split_tiles_frame Hf) as (tiles & -> & Ht). cbn [bind]. apply foldM_agree; [|exact Hb].
      intros o1' o2' [j gf] Hj Ho'. apply zenum_In in Hj as [_ Hj]. apply place_frame; [exact Ht|exact (snapped_geometry_inside Es Hm Hj)|exact Ho'].
    - unfold nd_module. rewrite E, lastn_app by reflexivity. destruct (Z.ltb_spec i (n_modules d)); [lia|]. reflexivity. }
  match goal with |- agree _ (let* o := ?a in _) (let* p := ?b in _) => destruct a as [r0|], b as [r1|] end; cbn in S1; try contradiction; cbn [bind]; [|exact S1].
  split; [reflexivity|exact S1].
Qed.
End Result.
