(** LPD from quadrant positions; geometry files; units; interpolation. *)

From Coq Require Import QArith Qround Qabs Lqa.
From Verif Require Import Base L_Base M_Geom S_Geom L_Geom1 L_Geom2 L_Geom4.

Set Implicit Arguments.
Unset Strict Implicit.

Local Open Scope Z_scope.
Ltac Zify.zify_post_hook ::= Z.div_mod_to_equations.
Local Open Scope list_scope.

(** ** LPD *)

Definition gap_px (unit : Q) (g : option Q) : Q := match g with None => 4 | Some q => q * (unit / pixel_size LPD) end%Q.

Definition lpd_tile (qp : list (Q * Q)) (unit : Q) (ag pg : option Q) (m t : Z) : tile :=
  let ps := pixel_size LPD in
  let q := q_at qp m in
  let a := gap_px unit ag in
  let p := gap_px unit pg in
  let panel_x := (fst q * unit + inject_Z (panel_across m) * ((256 + a + p) * ps))%Q in
  let panel_y := (snd q * unit + inject_Z (panel_up m) * ((256 + (7 * a) + p) * ps))%Q in
  let last := vadd (vadd (mk_vec panel_x panel_y 0)
                         (vmul ((inject_Z (frag_fs LPD) + a) * ps) (mk_vec (inject_Z (tile_across t)) 0 0)))
                   (vmul ((inject_Z (frag_ss LPD) + a) * ps) (mk_vec 0 (inject_Z (if t <? 8 then - t else - (15 - t))) 0)) in
  mk_tile (vsub last (mk_vec (inject_Z (frag_fs LPD) * ps) (inject_Z (frag_ss LPD) * ps) 0))
          (vmul ps (mk_vec 0 1 0)) (vmul ps (mk_vec 1 0 0)) (frag_ss LPD) (frag_fs LPD).

Lemma lpd_table : forall qp unit ag pg, List.length qp = 4%nat ->
  lpd_from_quad_positions qp unit ag pg = Ok (map (fun p => map (lpd_tile qp unit ag pg p) (zr 16)) (zr 16)).
Proof.
  intros qp unit ag pg L. unfold lpd_from_quad_positions. cbv zeta. apply mapM_pure. intros p Hp. apply zr_In in Hp.
  change (Z.of_nat 16) with 16 in Hp.
  rewrite (@py_index_nonneg _ qp (p / 4) (q_at qp p)); [|lia|apply q_at_nth; assumption]. cbn [bind].
  assert (Hx : py_index [-1; -1; 0; 0] (p mod 4) = Ok (panel_across p) /\ py_index [0; -1; -1; 0] (p mod 4) = Ok (panel_up p)).
  { unfold panel_across, panel_up. assert (C : p mod 4 = 0 \/ p mod 4 = 1 \/ p mod 4 = 2 \/ p mod 4 = 3) by lia.
    destruct C as [-> |[-> |[-> | ->]]]; split; reflexivity. }
  destruct Hx as [-> ->]. cbn [bind]. reflexivity.
Qed.

Lemma lpd_spec : forall qp unit ag pg, List.length qp = 4%nat ->
  exists g, lpd_from_quad_positions qp unit ag pg = Ok g /\ full LPD g /\
  forall m t tl, tile_at g m t = Some tl -> exists q, nth_error qp (Z.to_nat (m / 4)) = Some q /\
    veq (t_corner tl)
      (mk_vec (fst q * unit + inject_Z (panel_across m) * (256 * pixel_size LPD + gap_m unit ag + gap_m unit pg)
                 + inject_Z (tile_across t) * (128 * pixel_size LPD + gap_m unit ag) - 128 * pixel_size LPD)
              (snd q * unit + inject_Z (panel_up m) * (256 * pixel_size LPD + 7 * gap_m unit ag + gap_m unit pg)
                 + inject_Z (tile_up t) * (32 * pixel_size LPD + gap_m unit ag) - 32 * pixel_size LPD) 0)%Q /\
    veq (t_ss tl) (mk_vec 0 (pixel_size LPD) 0) /\ veq (t_fs tl) (mk_vec (pixel_size LPD) 0 0).
Proof.
  intros qp unit ag pg L. eexists. split; [apply lpd_table; exact L|]. split.
  - apply (@table_full LPD). intros; split; reflexivity.
  - intros m t tl H. apply table_at in H. destruct H as (Hm & Ht & ->). exists (q_at qp m). split; [apply q_at_nth; assumption|].
    assert (Eu : (if t <? 8 then - t else - (15 - t)) = tile_up t) by (unfold tile_up; destruct (t <? 8); lia).
    assert (Ga : forall o, (gap_px unit o * pixel_size LPD == gap_m unit o)%Q).
    { intros [q|]; unfold gap_px, gap_m; cbn [pixel_size]; field. }
    pose proof (Ga ag) as G1. pose proof (Ga pg) as G2. 
    unfold lpd_tile. cbv zeta. rewrite Eu. unfold veq, vmul, vadd, vsub. cbn [t_corner t_ss t_fs vx vy vz frag_ss frag_fs].
    change (inject_Z 32) with 32%Q. change (inject_Z 128) with 128%Q.
    rewrite <- G1, <- G2. repeat split; ring.
Qed.

Lemma lpd_missing : forall qp unit ag pg, (List.length qp < 4)%nat -> lpd_from_quad_positions qp unit ag pg = Err EIndexError.
Proof. intros qp unit ag pg L. do 4 (destruct qp as [|? qp]; [reflexivity|]). cbn in L. lia. Qed.

Section LpdGrid.
Variables (rs : Q) (qp : list (Q * Q)) (unit : Q) (ag pg : option Q) (g : geometry).
Hypothesis L : List.length qp = 4%nat.
Hypothesis Eg : lpd_from_quad_positions qp unit ag pg = Ok g.
Let px := pixel_shape rs LPD.
Let ps := pixel_size LPD.

Lemma lpd_steps : forall m t tl, tile_at g m t = Some tl ->
  og_ss (rounded px tl) = (1, 0) /\ og_fs (rounded px tl) = (0, 1).
Proof.
  intros m t tl H. destruct (lpd_spec unit ag pg L) as (g' & E' & _ & S). rewrite Eg in E'. injection E' as <-.
  destruct (S m t tl H) as (q & _ & _ & (S1 & S2 & _) & (F1 & F2 & _)). cbn [vx vy] in *.
  apply rounded_steps; [discriminate| |]; split; cbn [fst snd].
  - rewrite S1. ring.
  - rewrite S2. ring.
  - rewrite F1. ring.
  - rewrite F2. ring.
Qed.

Lemma lpd_snappable : snappable px g.
Proof.
  intros m t tl H. exists (rounded px tl). split; [apply rounded_snaps|].
  destruct (lpd_steps H) as [E1 E2]. right. rewrite E1, E2. cbn [fst snd]. lia.
Qed.

Definition col (m t : Z) : Z := 2 * panel_across m + tile_across t.
Definition row (m t : Z) : Z := 8 * panel_up m + tile_up t.
Definition xoff (m t : Z) (a p : Q) : Q := (inject_Z (panel_across m) * (256 + a + p) + inject_Z (tile_across t) * (128 + a))%Q.
Definition yoff (m t : Z) (a p : Q) : Q := (inject_Z (panel_up m) * (256 + 7 * a + p) + inject_Z (tile_up t) * (32 + a))%Q.

Lemma lpd_corner : forall m t tl, tile_at g m t = Some tl -> exists q, nth_error qp (Z.to_nat (m / 4)) = Some q /\
  half_even (fst q * unit / ps - 128 + xoff m t (gap_m unit ag / ps) (gap_m unit pg / ps)) (snd (og_corner (rounded px tl))) /\
  half_even (snd q * unit / ps - 32 + yoff m t (gap_m unit ag / ps) (gap_m unit pg / ps)) (fst (og_corner (rounded px tl))).
Proof.
  intros m t tl H. destruct (lpd_spec unit ag pg L) as (g' & E' & _ & S). rewrite Eg in E'. injection E' as <-.
  destruct (S m t tl H) as (q & Hq & (C1 & C2 & _) & _). cbn [vx vy] in *. exists q. split; [exact Hq|].
  unfold xoff, yoff, px, ps. cbn [rounded og_corner swap round_xy fst snd]. split; (eapply half_even_ext; [|apply np_around_half_even]).
  - rewrite C1. unfold pixel_shape. cbn [fst snd pixel_size]. field.
  - rewrite C2. unfold pixel_shape. cbn [fst snd pixel_size]. field.
Qed.

Lemma across_cases : forall m t, (panel_across m = -1 \/ panel_across m = 0) /\ (panel_up m = -1 \/ panel_up m = 0) /\
  (tile_across t = -1 \/ tile_across t = 0).
Proof.
  intros m t. unfold panel_across, panel_up, tile_across.
  destruct (m mod 4 <? 2), ((m mod 4 =? 1) || (m mod 4 =? 2)), (t <? 8); auto.
Qed.

Lemma tile_up_range : forall t, 0 <= t < 16 -> -7 <= tile_up t <= 0.
Proof. intros t H. unfold tile_up. destruct (Z.ltb_spec t 8); lia. Qed.

Lemma place_inj : forall m t m' t', 0 <= t < 16 -> 0 <= t' < 16 -> m / 4 = m' / 4 -> col m t = col m' t' -> row m t = row m' t' -> m = m' /\ t = t'.
Proof.
  intros m t m' t' Ht Ht' Hq Hc Hr. unfold col, row in *.
  destruct (across_cases m t) as (A1 & A2 & A3). destruct (across_cases m' t') as (B1 & B2 & B3).
  pose proof (tile_up_range Ht). pose proof (tile_up_range Ht').
  assert (E1 : panel_across m = panel_across m') by lia. assert (E2 : tile_across t = tile_across t') by lia.
  assert (E3 : panel_up m = panel_up m') by lia. assert (E4 : tile_up t = tile_up t') by lia.
  unfold panel_across, panel_up, tile_across, tile_up in *. split.
  - assert (C : m mod 4 = 0 \/ m mod 4 = 1 \/ m mod 4 = 2 \/ m mod 4 = 3) by lia.
    assert (C' : m' mod 4 = 0 \/ m' mod 4 = 1 \/ m' mod 4 = 2 \/ m' mod 4 = 3) by lia.
    assert (m mod 4 = m' mod 4); [|lia].
    destruct C as [C|[C|[C|C]]], C' as [C'|[C'|[C'|C']]]; rewrite C, C' in *; cbn in *; lia.
  - destruct (Z.ltb_spec t 8), (Z.ltb_spec t' 8); lia.
Qed.

Lemma xoff_mono : forall m t m' t' a p, (0 <= a)%Q -> (0 <= p)%Q -> col m t < col m' t' -> (xoff m t a p + 128 <= xoff m' t' a p)%Q.
Proof.
  intros m t m' t' a p Ha Hp H. unfold col, xoff in *.
  destruct (across_cases m t) as (A1 & _ & A3). destruct (across_cases m' t') as (B1 & _ & B3).
  destruct A1 as [A1|A1], A3 as [A3|A3], B1 as [B1|B1], B3 as [B3|B3]; rewrite A1, A3, B1, B3 in *; cbn [inject_Z] in *; try lia;
    change (inject_Z (-1)) with (-1)%Q; change (inject_Z 0) with 0%Q; lra.
Qed.

Lemma yoff_mono : forall m t m' t' a p, 0 <= t < 16 -> 0 <= t' < 16 -> (0 <= a)%Q -> (0 <= p)%Q -> row m t < row m' t' -> (yoff m t a p + 32 <= yoff m' t' a p)%Q.
Proof.
  intros m t m' t' a p Ht Ht' Ha Hp H. unfold row, yoff in *.
  destruct (across_cases m t) as (_ & A1 & _). destruct (across_cases m' t') as (_ & B1 & _).
  pose proof (tile_up_range Ht) as U. pose proof (tile_up_range Ht') as U'.
  set (u := tile_up t) in *. set (u' := tile_up t') in *.
  assert (K1 : (inject_Z (-7) <= inject_Z u)%Q) by (rewrite <- Zle_Qle; lia).
  assert (K2 : (inject_Z u <= inject_Z 0)%Q) by (rewrite <- Zle_Qle; lia).
  assert (K3 : (inject_Z (-7) <= inject_Z u')%Q) by (rewrite <- Zle_Qle; lia).
  assert (K4 : (inject_Z u' <= inject_Z 0)%Q) by (rewrite <- Zle_Qle; lia).
  change (inject_Z (-7)) with (-7)%Q in *. change (inject_Z 0) with 0%Q in *.
  assert (P1 : (0 <= (inject_Z u' + 7) * (32 + a))%Q) by (apply Qmult_le_0_compat; lra).
  assert (P2 : (0 <= (0 - inject_Z u) * (32 + a))%Q) by (apply Qmult_le_0_compat; lra).
  destruct A1 as [A1|A1], B1 as [B1|B1]; rewrite A1, B1 in *; change (inject_Z (-1)) with (-1)%Q; change (inject_Z 0) with 0%Q.
  - assert (Lq : (inject_Z u + 1 <= inject_Z u')%Q) by (change 1%Q with (inject_Z 1); rewrite <- inject_Z_plus, <- Zle_Qle; lia).
    assert (P : (0 <= (inject_Z u' - inject_Z u - 1) * (32 + a))%Q) by (apply Qmult_le_0_compat; lra). lra.
  - lra.
  - lia.
  - assert (Lq : (inject_Z u + 1 <= inject_Z u')%Q) by (change 1%Q with (inject_Z 1); rewrite <- inject_Z_plus, <- Zle_Qle; lia).
    assert (P : (0 <= (inject_Z u' - inject_Z u - 1) * (32 + a))%Q) by (apply Qmult_le_0_compat; lra). lra.
Qed.

Lemma lpd_no_overlap : (0 <= gap_m unit ag)%Q -> (0 <= gap_m unit pg)%Q ->
  forall m t s f m' t' s' f' y x, m / 4 = m' / 4 -> covers px LPD g m t s f y x -> covers px LPD g m' t' s' f' y x ->
  m = m' /\ t = t' /\ s = s' /\ f = f'.
Proof.
  intros Hag Hpg m t s f m' t' s' f' y x Hq Hc Hc'.
  apply covers_iff in Hc. destruct Hc as (tl & Ht & [Hs Hf] & Ec).
  apply covers_iff in Hc'. destruct Hc' as (tl' & Ht' & [Hs' Hf'] & Ec').
  destruct (lpd_steps Ht) as [S1 F1]. destruct (lpd_steps Ht') as [S2 F2].
  destruct (lpd_corner Ht) as (q & Q1 & X1 & Y1). destruct (lpd_corner Ht') as (q' & Q2 & X2 & Y2).
  assert (Full : full LPD g). { destruct (lpd_spec unit ag pg L) as (g' & E' & Fu & _). rewrite Eg in E'. injection E' as <-. exact Fu. }
  destruct (fits_at (proj1 Full) Ht) as (Rm & Rt & _). destruct (fits_at (proj1 Full) Ht') as (Rm' & Rt' & _).
  rewrite Hq in Q1. rewrite Q1 in Q2. injection Q2 as <-.
  unfold cell in Ec, Ec'. rewrite S1, F1 in Ec. rewrite S2, F2 in Ec'.
  set (cy := fst (og_corner (rounded px tl))) in *. set (cx := snd (og_corner (rounded px tl))) in *.
  set (cy' := fst (og_corner (rounded px tl'))) in *. set (cx' := snd (og_corner (rounded px tl'))) in *.
  cbn [fst snd] in Ec, Ec'. apply pair_equal_spec in Ec, Ec'. cbn [frag_ss frag_fs n_tiles] in *.
  assert (Da : forall u, (0 <= u -> 0 <= u / ps)%Q).
  { intros u Hu. unfold Qdiv. apply Qmult_le_0_compat; [exact Hu|]. vm_compute. discriminate. }
  pose proof (Da _ Hag) as Ga. pose proof (Da _ Hpg) as Gp.
  set (a := (gap_m unit ag / ps)%Q) in *. set (p := (gap_m unit pg / ps)%Q) in *.
  assert (Ecol : col m t = col m' t').
  { destruct (Z.lt_trichotomy (col m t) (col m' t')) as [G|[G|G]]; [|exact G|]; exfalso.
    - pose proof (xoff_mono Ga Gp G) as M. pose proof (half_even_gap (k := 128) eq_refl X1 X2) as B.
      assert (cx + 128 <= cx') by (apply B; change (inject_Z 128) with 128%Q; lra). lia.
    - pose proof (xoff_mono Ga Gp G) as M. pose proof (half_even_gap (k := 128) eq_refl X2 X1) as B.
      assert (cx' + 128 <= cx) by (apply B; change (inject_Z 128) with 128%Q; lra). lia. }
  assert (Erow : row m t = row m' t').
  { destruct (Z.lt_trichotomy (row m t) (row m' t')) as [G|[G|G]]; [|exact G|]; exfalso.
    - pose proof (yoff_mono Rt Rt' Ga Gp G) as M. pose proof (half_even_gap (k := 32) eq_refl Y1 Y2) as B.
      assert (cy + 32 <= cy') by (apply B; change (inject_Z 32) with 32%Q; lra). lia.
    - pose proof (yoff_mono Rt' Rt Ga Gp G) as M. pose proof (half_even_gap (k := 32) eq_refl Y2 Y1) as B.
      assert (cy' + 32 <= cy) by (apply B; change (inject_Z 32) with 32%Q; lra). lia. }
  destruct (@place_inj m t m' t' Rt Rt' Hq Ecol Erow) as [-> ->].
  rewrite Ht in Ht'. injection Ht' as <-. unfold cx', cy' in *. repeat split; lia.
Qed.
End LpdGrid.

(** ** AGIPD in other units *)

Lemma agipd_units : forall rs qp ag pg g, List.length qp = 4%nat -> agipd_from_quad_positions qp ag pg (1 # 1000) = Ok g ->
  snap_geometry rs AGIPD g = Err EAssertionError.
Proof.
  intros rs qp ag pg g L E. destruct (agipd_spec ag pg (1 # 1000) L) as (g' & E' & F & S). rewrite E in E'. injection E' as <-.
  destruct (full_at (m := 0) (t := 0) F) as [tl Ht]; [lia|cbn; lia|].
  destruct (S 0 0 tl Ht) as (q & _ & _ & (S1 & S2 & _) & _). cbn [vx vy] in *.
  apply (not_snappable Ht). intros o Ho Ha. destruct Ho as (_ & _ & H3 & H4 & _).
  assert (X : snd (og_ss o) = 5).
  { eapply half_even_unique; [exact H3|]. eapply half_even_ext; [|apply half_even_int]. rewrite S1. vm_compute. reflexivity. }
  destruct Ha as [(_ & A & _)|(_ & A & _)]; lia.
Qed.

(** ** Geometry files *)

Lemma mapM_Forall : forall A B (f : A -> res B) l r, mapM f l = Ok r -> forall k a, nth_error l k = Some a -> exists b, f a = Ok b /\ nth_error r k = Some b.
Proof.
  induction l as [|x l IH]; intros r H k a Hk; [destruct k; discriminate|]. cbn [mapM] in H.
  destruct (f x) as [b|] eqn:E; [|discriminate]. cbn [bind] in H. destruct (mapM f l) as [r'|] eqn:E2; [|discriminate]. injection H as <-.
  destruct k as [|k]; cbn in *; [injection Hk as <-; eauto|]. eapply IH; eauto.
Qed.

Lemma quad_modules_nth : forall m, 0 <= m < 16 -> nth_error quad_modules (Z.to_nat m) = Some (quad_of m, mod_of m).
Proof.
  intros m H. assert (C : forall k : nat, (k < 16)%nat -> nth_error quad_modules k = Some (quad_of (Z.of_nat k), mod_of (Z.of_nat k))).
  { intros k Hk. do 16 (destruct k as [|k]; [reflexivity|]). lia. }
  rewrite <- (Z2Nat.id m) at 2 3 by lia. apply C. lia.
Qed.

Lemma get_key_ok : forall A (o : option A) a, get_key o = Ok a -> o = Some a.
Proof. intros A [x|] a H; [injection H as ->; reflexivity|discriminate]. Qed.

Lemma mapM_length' : forall A B (f : A -> res B) l r, mapM f l = Ok r -> List.length r = List.length l.
Proof. exact mapM_len. Qed.

Lemma lpd_h5_spec : forall f qp unit g, lpd_from_h5 f qp unit = Ok g ->
  full LPD g /\ forall m t tl, tile_at g m t = Some tl -> exists q mp tp, nth_error qp (Z.to_nat (m / 4)) = Some q /\
    h5_module f (quad_of m) (mod_of m) = Some mp /\ h5_tile f (quad_of m) (mod_of m) (t + 1) = Some tp /\
    veq (point tl 32 128) (mk_vec (unit * (fst q + fst mp + fst tp)) (unit * (snd q + snd mp + snd tp)) 0)%Q /\
    veq (t_ss tl) (mk_vec 0 (pixel_size LPD) 0) /\ veq (t_fs tl) (mk_vec (pixel_size LPD) 0 0).
Proof.
  intros f qp unit g H. unfold lpd_from_h5 in H. destruct (Nat.eqb (List.length qp) 4) eqn:L; [|discriminate]. cbn [negb] in H.
  apply Nat.eqb_eq in L.
  assert (Len : Z.of_nat (List.length g) = 16) by (rewrite (mapM_len H); reflexivity).
  assert (Md : forall k md, nth_error g k = Some md -> (k < 16)%nat /\ exists q mp,
     nth_error qp (Z.to_nat (Z.of_nat k / 4)) = Some q /\ h5_module f (quad_of (Z.of_nat k)) (mod_of (Z.of_nat k)) = Some mp /\
     List.length md = 16%nat /\ forall j tl, nth_error md j = Some tl -> exists tp,
       h5_tile f (quad_of (Z.of_nat k)) (mod_of (Z.of_nat k)) (Z.of_nat j + 1) = Some tp /\
       let corner := vmul unit (mk_vec (fst q + fst mp + fst tp) (snd q + snd mp + snd tp) 0) in
       let ss := vmul (pixel_size LPD) (mk_vec 0 1 0) in
       let fs := vmul (pixel_size LPD) (mk_vec 1 0 0) in
       tl = mk_tile (vsub (vsub corner (vmul (inject_Z (frag_ss LPD)) ss)) (vmul (inject_Z (frag_fs LPD)) fs)) ss fs (frag_ss LPD) (frag_fs LPD)).
  { intros k md Hk. assert (Hk16 : (k < 16)%nat). { assert ((k < List.length g)%nat) by (apply nth_error_Some; congruence). lia. }
    split; [exact Hk16|].
    pose proof (@quad_modules_nth (Z.of_nat k)) as Qn. rewrite Nat2Z.id in Qn. specialize (Qn ltac:(lia)).
    destruct (mapM_Forall H Qn) as (md' & Hf & Hn). rewrite Hk in Hn. injection Hn as <-.
    destruct (py_index qp (quad_of (Z.of_nat k) - 1)) as [q|] eqn:Eq; [|discriminate]. cbn [bind] in Hf.
    destruct (h5_module f (quad_of (Z.of_nat k)) (mod_of (Z.of_nat k))) as [mp|] eqn:Em; [|discriminate]. cbn [get_key bind] in Hf.
    exists q, mp.
    assert (Hq : nth_error qp (Z.to_nat (Z.of_nat k / 4)) = Some q).
    { assert (X : py_index qp (quad_of (Z.of_nat k) - 1) = Ok (q_at qp (Z.of_nat k))).
      { apply py_index_nonneg; [unfold quad_of; lia|]. unfold quad_of. replace (Z.of_nat k / 4 + 1 - 1) with (Z.of_nat k / 4) by lia. apply q_at_nth; [exact L|lia]. }
      rewrite X in Eq. injection Eq as <-. apply q_at_nth; [exact L|lia]. }
    split; [exact Hq|]. split; [reflexivity|]. split; [rewrite (mapM_len Hf); reflexivity|].
    intros j tl Hj.
    assert (Hj16 : (j < 16)%nat). { rewrite <- (mapM_len Hf : List.length md = 16%nat). apply nth_error_Some. congruence. }
    assert (Nj : nth_error (map (fun i => i + 1) (zr (Z.to_nat (n_modules LPD)))) j = Some (Z.of_nat j + 1)).
    { rewrite nth_error_map. pose proof (@zr_nth 16 (Z.of_nat j)) as Zn. rewrite Nat2Z.id in Zn.
      change (Z.to_nat (n_modules LPD)) with 16%nat. rewrite Zn by lia. reflexivity. }
    destruct (mapM_Forall Hf Nj) as (tl' & Hg & Hn). rewrite Hj in Hn. injection Hn as <-.
    destruct (h5_tile f (quad_of (Z.of_nat k)) (mod_of (Z.of_nat k)) (Z.of_nat j + 1)) as [tp|]; [|discriminate]. cbn [get_key bind] in Hg.
    exists tp. split; [reflexivity|]. injection Hg as <-. reflexivity. }
  split.
  - assert (X : forall md, In md g -> Z.of_nat (List.length md) = n_tiles LPD /\ forall tl, In tl md -> t_ss_px tl = frag_ss LPD /\ t_fs_px tl = frag_fs LPD).
    { intros md Hmd. apply In_nth_error in Hmd. destruct Hmd as [k Hk]. destruct (Md k md Hk) as (_ & q & mp & _ & _ & Lm & Ht). split; [rewrite Lm; reflexivity|].
      intros tl Htl. apply In_nth_error in Htl. destruct Htl as [j Hj]. destruct (Ht j tl Hj) as (tp & _ & ->). split; reflexivity. }
    split; [|split; [exact Len|intros md Hmd; apply X; exact Hmd]]. split; [lia|]. intros md Hmd. destruct (X md Hmd). split; [lia|assumption].
  - intros m t tl Ht. unfold tile_at in Ht. destruct (0 <=? m) eqn:Em; [|discriminate]. destruct (0 <=? t) eqn:Et; [|discriminate]. cbn [andb] in Ht.
    apply Z.leb_le in Em. apply Z.leb_le in Et. destruct (nth_error g (Z.to_nat m)) as [md|] eqn:Eg; [|discriminate].
    destruct (Md _ _ Eg) as (_ & q & mp & Hq & Hmp & _ & Htl). destruct (Htl _ _ Ht) as (tp & Htp & ->).
    rewrite !Z2Nat.id in * by lia. exists q, mp, tp. repeat (split; [assumption|]).
    unfold veq, point, vmul, vadd, vsub. cbn [t_corner t_ss t_fs vx vy vz frag_ss frag_fs].
    change (inject_Z 32) with 32%Q. change (inject_Z 128) with 128%Q. repeat split; ring.
Qed.

Lemma dssc_h5_spec : forall rs f qp unit g, dssc_from_h5 rs f qp unit = Ok g ->
  full DSSC g /\ forall m t tl, tile_at g m t = Some tl -> exists q mp tp, nth_error qp (Z.to_nat (m / 4)) = Some q /\
    h5_module f (quad_of m) (mod_of m) = Some mp /\ h5_tile f (quad_of m) (mod_of m) (t + 1) = Some tp /\
    veq (if m <? 8 then point tl 0 256 else point tl 128 0)
        (mk_vec (unit * (fst q + fst mp + fst tp)) (unit * (snd q + snd mp + snd tp)) 0)%Q /\
    veq (t_ss tl) (mk_vec 0 (- inject_Z (dssc_dir m) * (rs * pixel_size DSSC)) 0)%Q /\
    veq (t_fs tl) (mk_vec (inject_Z (dssc_dir m) * pixel_size DSSC) 0 0)%Q.
Proof.
  intros rs f qp unit g H. unfold dssc_from_h5 in H. destruct (Nat.eqb (List.length qp) 4) eqn:L; [|discriminate]. cbn [negb] in H.
  apply Nat.eqb_eq in L.
  assert (Len : Z.of_nat (List.length g) = 16) by (rewrite (mapM_len H); reflexivity).
  assert (Md : forall k md, nth_error g k = Some md -> (k < 16)%nat /\ exists q mp,
     nth_error qp (Z.to_nat (Z.of_nat k / 4)) = Some q /\ h5_module f (quad_of (Z.of_nat k)) (mod_of (Z.of_nat k)) = Some mp /\
     List.length md = 2%nat /\ forall j tl, nth_error md j = Some tl -> exists tp,
       h5_tile f (quad_of (Z.of_nat k)) (mod_of (Z.of_nat k)) (Z.of_nat j + 1) = Some tp /\
       let xo := dssc_dir (Z.of_nat k) in
       let corner := vmul unit (mk_vec (fst q + fst mp + fst tp) (snd q + snd mp + snd tp) 0) in
       let ss := vmul (pixel_size DSSC * rs) (mk_vec 0 (inject_Z (- xo)) 0) in
       let fs := vmul (pixel_size DSSC) (mk_vec (inject_Z xo) 0 0) in
       let first := if xo =? -1 then vsub corner (vmul (inject_Z (frag_fs DSSC)) fs) else vsub corner (vmul (inject_Z (frag_ss DSSC)) ss) in
       tl = mk_tile first ss fs (frag_ss DSSC) (frag_fs DSSC)).
  { intros k md Hk. assert (Hk16 : (k < 16)%nat). { assert ((k < List.length g)%nat) by (apply nth_error_Some; congruence). lia. }
    split; [exact Hk16|].
    pose proof (@quad_modules_nth (Z.of_nat k)) as Qn. rewrite Nat2Z.id in Qn. specialize (Qn ltac:(lia)).
    destruct (mapM_Forall H Qn) as (md' & Hf & Hn). rewrite Hk in Hn. injection Hn as <-.
    destruct (py_index qp (quad_of (Z.of_nat k) - 1)) as [q|] eqn:Eq; [|discriminate]. cbn [bind] in Hf.
    destruct (h5_module f (quad_of (Z.of_nat k)) (mod_of (Z.of_nat k))) as [mp|] eqn:Em; [|discriminate]. cbn [get_key bind] in Hf.
    assert (Hx : py_index [-1; -1; 1; 1] (quad_of (Z.of_nat k) - 1) = Ok (dssc_dir (Z.of_nat k)) /\
                 py_index [1; 1; -1; -1] (quad_of (Z.of_nat k) - 1) = Ok (- dssc_dir (Z.of_nat k))).
    { unfold quad_of, dssc_dir. replace (Z.of_nat k / 4 + 1 - 1) with (Z.of_nat k / 4) by lia.
      assert (Hz : 0 <= Z.of_nat k < 16) by lia.
      destruct (m_cases Hz) as [E|[E|[E|E]]]; rewrite E; destruct (Z.ltb_spec (Z.of_nat k) 8); try lia; split; reflexivity. }
    destruct Hx as [X1 X2]. rewrite X1, X2 in Hf. cbn [bind] in Hf.
    exists q, mp.
    assert (Hq : nth_error qp (Z.to_nat (Z.of_nat k / 4)) = Some q).
    { assert (X : py_index qp (quad_of (Z.of_nat k) - 1) = Ok (q_at qp (Z.of_nat k))).
      { apply py_index_nonneg; [unfold quad_of; lia|]. unfold quad_of. replace (Z.of_nat k / 4 + 1 - 1) with (Z.of_nat k / 4) by lia. apply q_at_nth; [exact L|lia]. }
      rewrite X in Eq. injection Eq as <-. apply q_at_nth; [exact L|lia]. }
    split; [exact Hq|]. split; [reflexivity|]. split; [rewrite (mapM_len Hf); reflexivity|].
    intros j tl Hj.
    assert (Hj2 : (j < 2)%nat). { rewrite <- (mapM_len Hf : List.length md = 2%nat). apply nth_error_Some. congruence. }
    assert (Nj : nth_error [1; 2] j = Some (Z.of_nat j + 1)) by (do 2 (destruct j as [|j]; [reflexivity|]); lia).
    destruct (mapM_Forall Hf Nj) as (tl' & Hg & Hn). rewrite Hj in Hn. injection Hn as <-.
    destruct (h5_tile f (quad_of (Z.of_nat k)) (mod_of (Z.of_nat k)) (Z.of_nat j + 1)) as [tp|]; [|discriminate]. cbn [get_key bind] in Hg.
    exists tp. split; [reflexivity|]. injection Hg as <-. reflexivity. }
  split.
  - assert (X : forall md, In md g -> Z.of_nat (List.length md) = n_tiles DSSC /\ forall tl, In tl md -> t_ss_px tl = frag_ss DSSC /\ t_fs_px tl = frag_fs DSSC).
    { intros md Hmd. apply In_nth_error in Hmd. destruct Hmd as [k Hk]. destruct (Md k md Hk) as (_ & q & mp & _ & _ & Lm & Ht). split; [rewrite Lm; reflexivity|].
      intros tl Htl. apply In_nth_error in Htl. destruct Htl as [j Hj]. destruct (Ht j tl Hj) as (tp & _ & ->). split; reflexivity. }
    split; [|split; [exact Len|intros md Hmd; apply X; exact Hmd]]. split; [lia|]. intros md Hmd. destruct (X md Hmd). split; [lia|assumption].
  - intros m t tl Ht. unfold tile_at in Ht. destruct (0 <=? m) eqn:Em; [|discriminate]. destruct (0 <=? t) eqn:Et; [|discriminate]. cbn [andb] in Ht.
    apply Z.leb_le in Em. apply Z.leb_le in Et. destruct (nth_error g (Z.to_nat m)) as [md|] eqn:Eg; [|discriminate].
    destruct (Md _ _ Eg) as (_ & q & mp & Hq & Hmp & _ & Htl). destruct (Htl _ _ Ht) as (tp & Htp & ->).
    rewrite !Z2Nat.id in * by lia. exists q, mp, tp. repeat (split; [assumption|]).
    unfold dssc_dir. destruct (m <? 8); cbn [Z.eqb Pos.eqb Z.opp];
      unfold veq, point, vmul, vadd, vsub; cbn [t_corner t_ss t_fs vx vy vz frag_ss frag_fs];
      change (inject_Z 256) with 256%Q; change (inject_Z 128) with 128%Q; change (inject_Z (-1)) with (-1)%Q; change (inject_Z 1) with 1%Q;
      repeat split; ring.
Qed.

(** ** Inverting *)

Lemma known_iff : forall q m, existsb (fun qm => pair_eqb qm (q, m)) quad_modules = true <-> 1 <= q <= 4 /\ 1 <= m <= 4.
Proof.
  intros q m. rewrite existsb_exists. unfold pair_eqb. split.
  - intros ([a b] & H & E). cbn [fst snd] in E. rewrite andb_true_iff, !Z.eqb_eq in E. destruct E as [-> ->].
    cbn in H. repeat (destruct H as [H|H]; [injection H as <- <-; lia|]). destruct H.
  - intros [H1 H2]. exists (q, m). cbn [fst snd]. rewrite !Z.eqb_refl. split; [|reflexivity].
    assert (q = 1 \/ q = 2 \/ q = 3 \/ q = 4) as C by lia. assert (m = 1 \/ m = 2 \/ m = 3 \/ m = 4) as C' by lia.
    destruct C as [-> |[-> |[-> | ->]]], C' as [-> |[-> |[-> | ->]]]; cbn; tauto.
Qed.

Lemma Ok_inj : forall A (a b : A), Ok a = Ok b -> a = b.
Proof. intros A a b H. injection H. auto. Qed.

Lemma invert_spec : forall f f', invert_lpd f = Ok f' ->
  forall q m, 1 <= q <= 4 -> 1 <= m <= 4 ->
  (exists p, h5_module f q m = Some p /\ h5_module f' q m = Some (neg2 p)) /\
  forall t, 1 <= t <= 16 -> exists p, h5_tile f q m t = Some p /\ h5_tile f' q m t = Some (neg2 p).
Proof.
  intros f f' H q m Hq Hm. unfold invert_lpd in H. destruct (str_in _ _); [|discriminate]. cbn [negb] in H.
  destruct (mapM _ quad_modules) as [us|] eqn:E; [|discriminate]. cbn [bind] in H.
  assert (K : existsb (fun qm => pair_eqb qm (q, m)) quad_modules = true) by (apply known_iff; auto).
  assert (I : In (q, m) quad_modules).
  { apply existsb_exists in K. destruct K as ([a b] & I & X). unfold pair_eqb in X. cbn [fst snd] in X. rewrite andb_true_iff, !Z.eqb_eq in X. destruct X as [-> ->]. exact I. }
  apply In_nth_error in I. destruct I as [k Hk]. destruct (mapM_Forall E Hk) as (u & Hu & _). cbn [fst snd] in Hu.
  destruct (h5_module f q m) as [p|] eqn:Ep; [|discriminate]. cbn [get_key bind] in Hu.
  cbv zeta in H. apply Ok_inj in H. subst f'. cbn [h5_module h5_tile]. rewrite K. split; [exists p; rewrite Ep; auto|].
  intros t Ht. cbn [andb]. rewrite !(proj2 (Z.leb_le _ _)) by lia.
  unfold all_keys in Hu. destruct (mapM _ (map (fun i => i + 1) (zr 16))) as [r|] eqn:E2; [|discriminate].
  assert (Nj : nth_error (map (fun i => i + 1) (zr 16)) (Z.to_nat (t - 1)) = Some t).
  { rewrite nth_error_map, zr_nth by lia. cbn. f_equal. lia. }
  destruct (mapM_Forall E2 Nj) as (p' & Hp & _). apply get_key_ok in Hp. exists p'. rewrite Hp. auto.
Qed.

Lemma invert_twice : forall f f', invert_lpd f = Ok f' -> invert_lpd f' = Err EKeyError.
Proof.
  intros f f' H. unfold invert_lpd in H. destruct (str_in _ (h5_description f)); [|discriminate]. cbn [negb] in H.
  destruct (mapM _ quad_modules); [|discriminate]. cbn [bind] in H. injection H as <-. reflexivity.
Qed.

(** ** Interpolation *)

Lemma interpolate_ext : forall c t o o', pair_qeq o o' -> pair_qeq (interpolate_map c t o) (interpolate_map c t o').
Proof. intros c t o o' [E1 E2]. unfold pair_qeq, interpolate_map, mat_apply, mat_inv. cbn. rewrite E1, E2. split; reflexivity. Qed.

Lemma interpolate_wrong : forall qp ag pg g m t tl c s s' f, List.length qp = 4%nat ->
  agipd_from_quad_positions qp ag pg (pixel_size AGIPD) = Ok g -> tile_at g m t = Some tl -> ~ (s == s')%Q ->
  ~ (pair_qeq (interpolate_map c tl (out_point c tl s f)) (s, f) /\ pair_qeq (interpolate_map c tl (out_point c tl s' f)) (s', f)).
Proof.
  intros qp ag pg g m t tl c s s' f L E Ht Hs [[A1 A2] [B1 B2]].
  destruct (agipd_spec ag pg (pixel_size AGIPD) L) as (g' & E' & _ & S). rewrite E in E'. injection E' as <-.
  destruct (S m t tl Ht) as (q & _ & _ & (S1 & S2 & _) & (F1 & F2 & _)). cbn [vx vy] in *.
  unfold interpolate_map, out_point, mat_apply, mat_inv, mat_det, point in A1, B1. cbn [fst snd vx vy] in A1, B1.
  apply Hs.
  assert (D : q_dir m = 1 \/ q_dir m = -1) by apply q_dir_cases.
  set (k := (vy (t_ss tl) * vx (t_fs tl) - vy (t_fs tl) * vx (t_ss tl))%Q) in *.
  assert (Ek : (k == pixel_size AGIPD * pixel_size AGIPD)%Q).
  { unfold k. rewrite S1, S2, F1, F2. destruct D as [-> | ->]; cbn [inject_Z pixel_size]; reflexivity. }
  rewrite Ek in A1, B1. rewrite S1, S2, F1, F2 in A1, B1.
  destruct D as [D|D]; rewrite D in *; change (inject_Z 1) with 1%Q in *; change (inject_Z (-1)) with (-1)%Q in *; cbn [pixel_size] in *.
  - match type of A1 with (?a == s)%Q => match type of B1 with (?b == s')%Q => assert (X : (a - b == 5000 * (s - s'))%Q) by field end end.
    rewrite A1, B1 in X. lra.
  - match type of A1 with (?a == s)%Q => match type of B1 with (?b == s')%Q => assert (X : (a - b == 5000 * (s - s'))%Q) by field end end.
    rewrite A1, B1 in X. lra.
Qed.

Lemma interpolate_scale : forall qp ag pg g m t tl c s f s' f', List.length qp = 4%nat ->
  agipd_from_quad_positions qp ag pg (pixel_size AGIPD) = Ok g -> tile_at g m t = Some tl ->
  let a := interpolate_map c tl (out_point c tl s f) in let b := interpolate_map c tl (out_point c tl s' f') in
  (fst a - fst b == (s - s') / pixel_size AGIPD /\ snd a - snd b == (f - f') / pixel_size AGIPD)%Q.
Proof.
  intros qp ag pg g m t tl c s f s' f' L E Ht.
  destruct (agipd_spec ag pg (pixel_size AGIPD) L) as (g' & E' & _ & S). rewrite E in E'. injection E' as <-.
  destruct (S m t tl Ht) as (q & _ & _ & (S1 & S2 & _) & (F1 & F2 & _)). cbn [vx vy] in *.
  unfold interpolate_map, out_point, mat_apply, mat_inv, mat_det, point. cbn [fst snd vx vy].
  assert (D : q_dir m = 1 \/ q_dir m = -1) by apply q_dir_cases.
  set (k := (vy (t_ss tl) * vx (t_fs tl) - vy (t_fs tl) * vx (t_ss tl))%Q) in *.
  assert (Ek : (k == pixel_size AGIPD * pixel_size AGIPD)%Q).
  { unfold k. rewrite S1, S2, F1, F2. destruct D as [-> | ->]; cbn [inject_Z pixel_size]; reflexivity. }
  rewrite Ek. rewrite S1, S2, F1, F2.
  destruct D as [-> | ->]; change (inject_Z 1) with 1%Q in *; change (inject_Z (-1)) with (-1)%Q in *; cbn [pixel_size] in *; split; field.
Qed.
Lemma interpolate_scale_all : forall tl c s f s' f', ~ (vy (t_ss tl) * vx (t_fs tl) - vy (t_fs tl) * vx (t_ss tl) == 0)%Q ->
  let a := interpolate_map c tl (out_point c tl s f) in let b := interpolate_map c tl (out_point c tl s' f') in
  (fst a - fst b == (s - s') / pixel_size AGIPD /\ snd a - snd b == (f - f') / pixel_size AGIPD)%Q.
Proof.
  intros tl c s f s' f' Hk. unfold interpolate_map, out_point, mat_apply, mat_inv, mat_det, point. cbn [fst snd vx vy pixel_size].
  split; field; (split; [exact Hk|discriminate] || exact Hk).
Qed.
Lemma interpolate_offset : forall c tl,
  (fst (interpolate_map c tl (0, 0)) == vy (t_ss tl) * (vy (t_corner tl) + inject_Z (fst c)) + vy (t_fs tl) * (vx (t_corner tl) + inject_Z (snd c)) /\
   snd (interpolate_map c tl (0, 0)) == vx (t_ss tl) * (vy (t_corner tl) + inject_Z (fst c)) + vx (t_fs tl) * (vx (t_corner tl) + inject_Z (snd c)))%Q.
Proof. intros c tl. unfold interpolate_map, mat_apply, mat_inv. cbn [fst snd]. split; ring. Qed.
