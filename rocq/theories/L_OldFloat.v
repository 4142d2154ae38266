(** Lemmas on the deprecated LPD geometry with rounded arithmetic. *)
From Coq Require Import QArith Qround Qabs Lqa.
From Verif Require Import Base L_Base L_Crystfel M_Cxi M_Geom M_GeomFloat S_Geom S_GeomFloat L_Geom2 L_GeomFloat L_GeomFloat3 L_CrystText3 L_CrystFloat
  M_OldGeom S_OldGeom L_OldGeom M_OldFloat S_OldFloat.
Set Implicit Arguments.
Unset Strict Implicit.
Local Open Scope string_scope.
Local Open Scope Z_scope.
Local Open Scope list_scope.

Lemma floor_near : forall e x y, (0 <= e)%Q -> (Qabs (x - y) <= e)%Q -> clear_of_whole e y -> Qfloor x = Qfloor y.
Proof.
  intros e x y E H C. pose proof (Qfloor_le y) as F1. pose proof (Qlt_floor y) as F2. set (z := Qfloor y) in *.
  pose proof (C z) as C1. pose proof (C (z + 1)) as C2. apply Qabs_Qle_condition in H.
  rewrite Qabs_pos in C1 by lra. rewrite Qabs_neg in C2 by lra.
  assert (G1 : (inject_Z z <= x)%Q) by lra. assert (G2 : (x < inject_Z (z + 1))%Q) by lra.
  apply Qfloor_resp_le in G1. rewrite Qfloor_Z in G1. pose proof (Qfloor_le x) as F3.
  assert (G3 : (inject_Z (Qfloor x) < inject_Z (z + 1))%Q) by lra. rewrite <- Zlt_Qlt in G3. lia.
Qed.

Section Fold.
Variable f : Q -> Z.
Hypothesis mono : forall a b, (a <= b)%Q -> f a <= f b.
Lemma fold_min_f : forall l z, f (fold_left qmin2 l z) = fold_left Z.min (map f l) (f z).
Proof.
  induction l as [|a l IH]; intros z; [reflexivity|]. cbn [fold_left map]. rewrite IH. f_equal. unfold qmin2. destruct (Qle_bool z a) eqn:E.
  - apply Qle_bool_iff in E. apply mono in E. lia.
  - assert (L : (a <= z)%Q) by (apply Qlt_le_weak, Qnot_le_lt; intros K; apply Qle_bool_iff in K; congruence). apply mono in L. lia.
Qed.
Lemma fold_max_f : forall l z, f (fold_left qmax2 l z) = fold_left Z.max (map f l) (f z).
Proof.
  induction l as [|a l IH]; intros z; [reflexivity|]. cbn [fold_left map]. rewrite IH. f_equal. unfold qmax2. destruct (Qle_bool a z) eqn:E.
  - apply Qle_bool_iff in E. apply mono in E. lia.
  - assert (L : (z <= a)%Q) by (apply Qlt_le_weak, Qnot_le_lt; intros K; apply Qle_bool_iff in K; congruence). apply mono in L. lia.
Qed.
End Fold.

(** The same names, offsets which differ by rounding. *)
Inductive frel : frag -> frag -> Prop :=
| frel_intro : forall o' o cs' cs, near (6 # 10 ^ 15) 5 (fst o') (fst o) -> near (6 # 10 ^ 15) 5 (snd o') (snd o) ->
    Forall2 (fun a b => fst a = fst b /\ frel (snd a) (snd b)) cs' cs -> frel (Frag o' cs') (Frag o cs).

Lemma frel_get : forall cs' cs n, Forall2 (fun a b => fst a = fst b /\ frel (snd a) (snd b)) cs' cs ->
  match dict_get n cs', dict_get n cs with Some a, Some b => frel a b | None, None => True | _, _ => False end.
Proof. intros cs' cs n H. exact (@drel_get frag frel n cs' cs H). Qed.

Lemma frel_paths : forall g g', frel g' g -> iter_leaf_paths g' = iter_leaf_paths g.
Proof.
  induction g as [o cs IH] using frag_ind2. intros g' H. inversion H as [o' o0 cs' cs0 N1 N2 F]; subst. rewrite !iter_unfold.
  assert (E : map (fun kv => (fst kv, iter_leaf_paths (snd kv))) cs' = map (fun kv => (fst kv, iter_leaf_paths (snd kv))) cs).
  { clear H. induction F as [|[n a] [m b] cs' cs [H1 H2] F IHF]; [reflexivity|]. cbn [map fst snd] in *. subst m. f_equal.
    - f_equal. apply (IH n b); [left; reflexivity|exact H2].
    - apply IHF. intros k c Hc. apply (IH k c). right. exact Hc. }
  rewrite E. reflexivity.
Qed.

Section Fl.
Variable fl : Q -> Q.
Hypothesis F : float64 fl.

Definition en (n : nat) : Q := inject_Z (Z.of_nat (Datatypes.S n)) * (2 # 10 ^ 14).
Definition mn (n : nat) : Q := inject_Z (Z.of_nat (Datatypes.S n)) * 5.
Definition orel (n : nat) (a b : Q * Q) : Prop := near (en n) (mn n) (fst a) (fst b) /\ near (en n) (mn n) (snd a) (snd b).

Lemma add_step : forall n x' x y' y, (n <= 2)%nat -> near (6 # 10 ^ 15) 5 x' x -> near (en n) (mn n) y' y ->
  near (en (Datatypes.S n)) (mn (Datatypes.S n)) (fl (x' + y')) (x + y).
Proof.
  intros n x' x y' y L N1 N2. change (fl (x' + y')) with (fadd fl x' y').
  destruct n as [|[|[|n]]]; [| | |lia]; (eapply near_add; [exact F|exact N1|exact N2|num|num|num|num]).
Qed.

Lemma offset_r : forall p g' g, (List.length p <= 3)%nat -> frel g' g -> rrel (orel (List.length p)) (find_offset_fl fl g' p) (find_offset g p).
Proof.
  induction p as [|n p IH]; intros g' g L H; inversion H as [o' o cs' cs N1 N2 HF]; subst; cbn [find_offset find_offset_fl fr_offset fr_children List.length] in *.
  - cbn. split; (eapply near_weaken; [eassumption|num|num]).
  - pose proof (frel_get n HF) as G. destruct (dict_get n cs') as [a|], (dict_get n cs) as [b|]; try contradiction; [|reflexivity].
    eapply bind_rel; [apply IH; [lia|exact G]|]. intros s' s [S1 S2]. cbn [rrel qadd2_fl qadd2]. split; cbn [fst snd]; (apply add_step; [lia|assumption|assumption]).
Qed.

Lemma ps_err : (Qabs (fl old_pixel_size - (1 # 2000)) <= 2 # 10 ^ 19)%Q.
Proof.
  assert (X : (fl old_pixel_size - (1 # 2000) == fl old_pixel_size - old_pixel_size)%Q) by (unfold old_pixel_size; lra).
  rewrite X. eapply Qle_trans; [apply (fl_error F (q := old_pixel_size)); num|num].
Qed.

Lemma px_near : forall n x y, (n <= 3)%nat -> near (en n) (mn n) x y -> clear_of_whole (1 # 10 ^ 8) (y / (1 # 2000)) -> to_px_fl fl x = to_px y.
Proof.
  intros n x y L N C. unfold to_px_fl. rewrite to_px_floor.
  pose proof ps_err as E.
  assert (N' : near (8 # 10 ^ 14) 20 x y) by (destruct n as [|[|[|[|n]]]]; [| | | |lia]; (eapply near_weaken; [exact N|num|num])).
  assert (D : near (1 # 10 ^ 8) (10 ^ 9) (fdiv (fun q => q) x (fl old_pixel_size)) (y / (1 # 2000))).
  { eapply near_div with (ep := 2 # 10 ^ 19); [exact id64|exact N'|reflexivity|exact E|num|num|num|num|num]. }
  apply floor_near with (1 # 10 ^ 8); [num|exact (proj1 D)|exact C].
Qed.

(** The floor of a number near another is the same or one next to it. *)
Lemma px_one : forall n x y, (n <= 3)%nat -> near (en n) (mn n) x y -> Z.abs (to_px_fl fl x - Qfloor (y / (1 # 2000))) <= 1.
Proof.
  intros n x y L N. unfold to_px_fl. pose proof ps_err as E.
  assert (N' : near (8 # 10 ^ 14) 20 x y) by (destruct n as [|[|[|[|n]]]]; [| | | |lia]; (eapply near_weaken; [exact N|num|num])).
  assert (D : near (1 # 10 ^ 8) (10 ^ 9) (fdiv (fun q => q) x (fl old_pixel_size)) (y / (1 # 2000))).
  { eapply near_div with (ep := 2 # 10 ^ 19); [exact id64|exact N'|reflexivity|exact E|num|num|num|num|num]. }
  destruct D as [D _]. unfold fdiv in D. set (a := (x / fl old_pixel_size)%Q) in *. set (b := (y / (1 # 2000))%Q) in *. apply Qabs_Qle_condition in D.
  change (10 ^ 8)%positive with 100000000%positive in D.
  pose proof (Qfloor_le a). pose proof (Qlt_floor a). pose proof (Qfloor_le b). pose proof (Qlt_floor b).
  assert (K1 : (inject_Z (Qfloor a) < inject_Z (Qfloor b + 2))%Q) by (rewrite inject_Z_plus in *; change (inject_Z 2) with 2%Q; change (inject_Z 1) with 1%Q in *; lra).
  assert (K2 : (inject_Z (Qfloor b) < inject_Z (Qfloor a + 2))%Q) by (rewrite inject_Z_plus in *; change (inject_Z 2) with 2%Q; change (inject_Z 1) with 1%Q in *; lra).
  rewrite <- Zlt_Qlt in K1, K2. lia.
Qed.

Lemma psf_pos : (0 < fl old_pixel_size)%Q.
Proof.
  pose proof ps_err as E.
  apply Qabs_Qle_condition in E. change (10 ^ 19)%positive with 10000000000000000000%positive in E. lra.
Qed.
Lemma to_px_fl_mono : forall a b, (a <= b)%Q -> to_px_fl fl a <= to_px_fl fl b.
Proof.
  intros a b H. unfold to_px_fl. apply Qfloor_resp_le. unfold Qdiv. apply Qmult_le_compat_r; [exact H|]. apply Qlt_le_weak, Qinv_lt_0_compat, psf_pos.
Qed.
Lemma to_px_fl_0 : to_px_fl fl 0 = 0.
Proof. unfold to_px_fl. rewrite (Qfloor_comp (0 / fl old_pixel_size) 0); [reflexivity|]. unfold Qdiv. apply Qmult_0_l. Qed.

(** ** The image *)
Section Image.
Variables g' g : frag.
Hypothesis R : frel g' g.
Hypothesis W : well_named g.
Hypothesis D3 : depth_three g.
Hypothesis C : offsets_clear (1 # 10 ^ 8) g.

Lemma leaf_px : forall p s, leaf_at g p s -> exists s', find_offset_fl fl g' p = Ok s' /\ find_offset g p = Ok s /\
  to_px_fl fl (fst s') = to_px (fst s) /\ to_px_fl fl (snd s') = to_px (snd s).
Proof.
  intros p s H. pose proof (D3 H) as L. destruct (C H) as [C1 C2]. destruct H as [o Ho]. pose proof (reaches_offset W Ho) as E.
  pose proof (offset_r L R) as P. rewrite E in *. destruct (find_offset_fl fl g' p) as [s'|]; [|contradiction]. destruct P as [P1 P2]. exists s'. split; [reflexivity|]. split; [reflexivity|].
  split; [exact (px_near L P1 C1)|exact (px_near L P2 C2)].
Qed.

Lemma dims_fl : plotting_dimensions_fl fl g' = plotting_dimensions g.
Proof.
  unfold plotting_dimensions_fl, plotting_dimensions. rewrite (frel_paths R).
  assert (X : exists o' o, mapM (find_offset_fl fl g') (iter_leaf_paths g) = Ok o' /\ mapM (find_offset g) (iter_leaf_paths g) = Ok o /\
    map (to_px_fl fl) (map fst o') = map to_px (map fst o) /\ map (to_px_fl fl) (map snd o') = map to_px (map snd o)).
  { assert (K : forall p, In p (iter_leaf_paths g) -> exists s, leaf_at g p s) by (intros p Hp; now apply leaf_paths_spec).
    induction (iter_leaf_paths g) as [|p ps IH]; [exists [], []; repeat split; reflexivity|].
    destruct IH as (o' & o & A1 & A2 & A3 & A4); [intros q Hq; apply K; right; exact Hq|]. destruct (K p (or_introl eq_refl)) as [s Hs].
    destruct (leaf_px Hs) as (s' & B1 & B2 & B3 & B4). cbn [mapM]. rewrite B1, B2, A1, A2. cbn [bind]. exists (s' :: o'), (s :: o). split; [reflexivity|]. split; [reflexivity|].
    cbn [map]. rewrite B3, B4, A3, A4. split; reflexivity. }
  destruct X as (o' & o & A1 & A2 & A3 & A4). rewrite A1, A2. cbn [bind].
  rewrite !(fold_min_f to_px_fl_mono), !(fold_max_f to_px_fl_mono), !(fold_min_f to_px_mono), !(fold_max_f to_px_mono), A3, A4, to_px_fl_0.
  change (to_px 0) with 0. reflexivity.
Qed.

Lemma image_fl : forall A (nan : A) floating shape data, lpd_tree g ->
  position_all_modules_fl fl nan floating g' shape data = position_all_modules nan floating g shape data.
Proof.
  intros A nan floating shape data T. unfold position_all_modules_fl, position_all_modules. destruct shape as [[n ss] fs].
  destruct (negb ((n =? 16) && (ss =? 256) && (fs =? 256))); [reflexivity|]. rewrite dims_fl. destruct (plotting_dimensions g) as [[size centre]|]; [|reflexivity]. cbn [bind].
  destruct (negb floating); [reflexivity|]. f_equal. rewrite all_tiles_list. apply foldM_ext_in. intros pt Hp s0.
  apply in_map_iff in Hp as ([c t] & <- & Hp). apply tile_list_In in Hp. destruct (T c t Hp) as [s Hs]. destruct (leaf_px Hs) as (s' & B1 & B2 & B3 & B4).
  unfold place_old_fl, place_old, tile_data. cbn [fst snd]. rewrite B1, B2. cbn [bind]. rewrite B3, B4. reflexivity.
Qed.
End Image.

(** ** Reading *)
Lemma scale_r : forall w p, (1 # 10 ^ 6 <= w)%Q -> (w <= 1)%Q -> pos_small w p ->
  near (6 # 10 ^ 15) 5 (fst (qscale_fl fl p (fl w))) (fst p * w) /\ near (6 # 10 ^ 15) 5 (snd (qscale_fl fl p (fl w))) (snd p * w).
Proof.
  intros w [x y] W1 W2 [H1 H2]. cbn [fst snd qscale_fl] in *. change (fl (x * fl w)) with (fmul fl x (fl w)). change (fl (y * fl w)) with (fmul fl y (fl w)).
  split; (eapply near_weaken; [apply (near_scale F W1 W2); [eassumption|num]|num|num]).
Qed.

Lemma from_group_unfold_fl : forall unit p gs, from_h5_group_fl fl unit (HGroup p gs) =
  let* children := mapM (fun nh => let* c := from_h5_group_fl fl (fl default_unit) (snd nh) in Ok (fst nh, c)) gs in
  match p with None => Err EKeyError | Some p => Ok (Frag (qscale_fl fl p unit) children) end.
Proof.
  intros unit p gs. cbn [from_h5_group_fl]. f_equal.
  induction gs as [|[n h] gs IH]; [reflexivity|]. cbn [mapM fst snd]. destruct (from_h5_group_fl fl (fl default_unit) h); [|reflexivity]. cbn [bind].
  rewrite IH. reflexivity.
Qed.

Lemma mapM_r_in : forall A B (R : B -> B -> Prop) (f g : A -> res B) l, (forall a, In a l -> rrel R (f a) (g a)) -> rrel (Forall2 R) (mapM f l) (mapM g l).
Proof.
  intros A B R f g l H. induction l as [|x l IH]; [constructor|]. cbn [mapM]. eapply bind_rel; [apply H; left; reflexivity|]. intros a b Hab.
  eapply bind_rel; [apply IH; intros; apply H; right; assumption|]. intros a' b' Hab'. cbn. now constructor.
Qed.

Definition nrel (a b : string * frag) : Prop := fst a = fst b /\ frel (snd a) (snd b).

Lemma group_r : forall h w, (1 # 10 ^ 6 <= w)%Q -> (w <= 1)%Q -> group_small w h -> rrel frel (from_h5_group_fl fl (fl w) h) (from_h5_group w h).
Proof.
  induction h as [p gs IH] using hgroup_ind2. intros w W1 W2 S. inversion S as [w0 p0 gs0 S1 S2]; subst. rewrite from_group_unfold, from_group_unfold_fl.
  apply bind_rel with (R := Forall2 nrel).
  - apply mapM_r_in. intros [n h] Hh. cbn [fst snd]. eapply bind_rel; [apply (IH n h Hh); [num|num|exact (S2 n h Hh)]|]. intros a b Hab. split; [reflexivity|exact Hab].
  - intros cs' cs HF. destruct p as [p|]; [|reflexivity]. destruct (scale_r W1 W2 (S1 p eq_refl)) as [N1 N2]. constructor; assumption.
Qed.

Lemma quadrants_r : forall file w positions n, (1 # 10 ^ 6 <= w)%Q -> (w <= 1)%Q -> (forall p, In p positions -> pos_small w p) ->
  (forall q items m h, dict_get q file = Some items -> In (m, HG h) items -> group_small w h) ->
  rrel (Forall2 nrel) (quadrants_fl fl file (fl w) n positions) (quadrants file w n positions).
Proof.
  intros file w positions n W1 W2. revert n. induction positions as [|p positions IH]; intros n HP HF; cbn [quadrants quadrants_fl]; [constructor|].
  destruct (dict_get (qname n) file) as [items|] eqn:E; [|reflexivity].
  apply bind_rel with (R := Forall2 nrel).
  - apply mapM_r_in. intros [m [h|]] Hm; cbn [fst snd]; [|reflexivity]. eapply bind_rel; [apply (group_r W1 W2); exact (HF _ _ _ _ E Hm)|]. intros a b Hab. split; [reflexivity|exact Hab].
  - intros ms' ms HM. eapply bind_rel; [apply IH; [intros q Hq; apply HP; right; exact Hq|exact HF]|]. intros qs' qs HQ. cbn [rrel]. constructor; [|exact HQ].
    split; [reflexivity|]. destruct (scale_r W1 W2 (HP p (or_introl eq_refl))) as [N1 N2]. constructor; assumption.
Qed.

Lemma read_r : forall file w positions, (1 # 10 ^ 6 <= w)%Q -> (w <= 1)%Q -> (forall p, In p positions -> pos_small w p) ->
  (forall q items m h, dict_get q file = Some items -> In (m, HG h) items -> group_small w h) ->
  rrel frel (from_h5_file_and_quad_positions_fl fl file positions (fl w)) (from_h5_file_and_quad_positions file positions w).
Proof.
  intros file w positions W1 W2 HP HF. unfold from_h5_file_and_quad_positions_fl, from_h5_file_and_quad_positions.
  eapply bind_rel; [apply (quadrants_r 1 W1 W2 HP HF)|]. intros qs' qs H. cbn [rrel]. constructor; [| |exact H]; cbn [fst snd]; split; num.
Qed.
End Fl.
