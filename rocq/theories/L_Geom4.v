(** Geometries from quadrant positions. *)

From Coq Require Import QArith Qround Qabs Lqa.
From Verif Require Import Base L_Base M_Geom S_Geom L_Geom1 L_Geom2.

Set Implicit Arguments.
Unset Strict Implicit.

Local Open Scope Z_scope.
Ltac Zify.zify_post_hook ::= Z.div_mod_to_equations.
Local Open Scope list_scope.

Lemma mapM_pure : forall A B (f : A -> res B) h l, (forall x, In x l -> f x = Ok (h x)) -> mapM f l = Ok (map h l).
Proof.
  induction l as [|a l IH]; intros H; [reflexivity|]. cbn [mapM map]. rewrite H by (left; reflexivity). cbn [bind].
  rewrite IH by (intros; apply H; right; assumption). reflexivity.
Qed.

Lemma zr_In : forall n z, In z (zr n) <-> 0 <= z < Z.of_nat n.
Proof.
  intros n z. unfold zr. rewrite in_map_iff. split.
  - intros (k & <- & H). apply in_seq in H. lia.
  - intros H. exists (Z.to_nat z). split; [lia|]. apply in_seq. lia.
Qed.

Lemma zr_nth : forall n z, 0 <= z < Z.of_nat n -> nth_error (zr n) (Z.to_nat z) = Some z.
Proof.
  intros n z H. unfold zr. rewrite nth_error_map.
  assert (E : nth_error (seq 0 n) (Z.to_nat z) = Some (Z.to_nat z)).
  { rewrite (nth_error_nth' _ 0%nat) by (rewrite seq_length; lia). rewrite seq_nth by lia. reflexivity. }
  rewrite E. cbn. f_equal. lia.
Qed.

Lemma zr_length : forall n, List.length (zr n) = n.
Proof. intros. unfold zr. rewrite map_length, seq_length. reflexivity. Qed.

(** a geometry tabulated by module and tile *)
Lemma table_at : forall (h : Z -> Z -> tile) n k m t tl,
  tile_at (map (fun p => map (h p) (zr k)) (zr n)) m t = Some tl <-> 0 <= m < Z.of_nat n /\ 0 <= t < Z.of_nat k /\ tl = h m t.
Proof.
  intros h n k m t tl. unfold tile_at. split.
  - destruct (0 <=? m) eqn:Em; [|discriminate]. destruct (0 <=? t) eqn:Et; [|discriminate]. cbn [andb].
    apply Z.leb_le in Em. apply Z.leb_le in Et. rewrite nth_error_map.
    destruct (nth_error (zr n) (Z.to_nat m)) as [m'|] eqn:E1; [|discriminate]. cbn [option_map]. rewrite nth_error_map.
    destruct (nth_error (zr k) (Z.to_nat t)) as [t'|] eqn:E2; [|discriminate]. cbn [option_map]. intros [= <-].
    assert (L1 : (Z.to_nat m < n)%nat) by (rewrite <- (zr_length n); apply nth_error_Some; congruence).
    assert (L2 : (Z.to_nat t < k)%nat) by (rewrite <- (zr_length k); apply nth_error_Some; congruence).
    rewrite zr_nth in E1 by lia. rewrite zr_nth in E2 by lia. injection E1 as <-. injection E2 as <-.
    repeat split; lia.
  - intros (Hm & Ht & ->). rewrite !(proj2 (Z.leb_le 0 _)) by lia. cbn [andb].
    rewrite nth_error_map, zr_nth by lia. cbn [option_map]. rewrite nth_error_map, zr_nth by lia. reflexivity.
Qed.

Lemma table_full : forall d (h : Z -> Z -> tile),
  (forall m t, t_ss_px (h m t) = frag_ss d /\ t_fs_px (h m t) = frag_fs d) ->
  full d (map (fun p => map (h p) (zr (Z.to_nat (n_tiles d)))) (zr 16)).
Proof.
  intros d h H.
  assert (L : forall md, In md (map (fun p => map (h p) (zr (Z.to_nat (n_tiles d)))) (zr 16)) ->
    Z.of_nat (List.length md) = n_tiles d /\ forall tl, In tl md -> t_ss_px tl = frag_ss d /\ t_fs_px tl = frag_fs d).
  { intros md Hmd. apply in_map_iff in Hmd. destruct Hmd as (p & <- & _). split.
    - rewrite map_length, zr_length. destruct d; reflexivity.
    - intros tl Htl. apply in_map_iff in Htl. destruct Htl as (t & <- & _). apply H. }
  split; [|split].
  - split; [rewrite map_length, zr_length; cbn; lia|]. intros md Hmd. destruct (L md Hmd). split; [lia|assumption].
  - rewrite map_length, zr_length. reflexivity.
  - intros md Hmd. apply L. exact Hmd.
Qed.

Lemma py_index_nonneg : forall A (l : list A) i a, 0 <= i -> nth_error l (Z.to_nat i) = Some a -> py_index l i = Ok a.
Proof.
  intros A l i a Hi E. assert ((Z.to_nat i < List.length l)%nat) by (apply nth_error_Some; congruence).
  unfold py_index. rewrite (proj2 (Z.ltb_ge i 0)) by lia. cbv zeta. rewrite (proj2 (Z.leb_le 0 i)), (proj2 (Z.ltb_lt i _)) by lia.
  cbn [andb]. rewrite E. reflexivity.
Qed.

(** ** AGIPD *)



Definition q_at (qp : list (Q * Q)) (m : Z) : Q * Q := nth (Z.to_nat (m / 4)) qp (0, 0)%Q.

Lemma q_at_nth : forall qp m, List.length qp = 4%nat -> 0 <= m < 16 -> nth_error qp (Z.to_nat (m / 4)) = Some (q_at qp m).
Proof. intros qp m L H. unfold q_at. apply nth_error_nth'. rewrite L. lia. Qed.

Definition agipd_tile (qp : list (Q * Q)) (ag pg unit : Q) (m t : Z) : tile :=
  let ps := pixel_size AGIPD in
  let q := q_at qp m in
  mk_tile (mk_vec (fst q * unit + inject_Z (q_dir m) * ((inject_Z (frag_ss AGIPD) + ag * unit / ps) * ps) * inject_Z t)
                  (snd q * unit - inject_Z (m mod 4) * ((inject_Z (frag_fs AGIPD) + pg * unit / ps) * ps)) 0)
          (vmul unit (mk_vec (inject_Z (q_dir m)) 0 0))
          (vmul unit (mk_vec 0 (inject_Z (- q_dir m)) 0))
          (frag_ss AGIPD) (frag_fs AGIPD).

Lemma m_cases : forall m, 0 <= m < 16 -> m / 4 = 0 \/ m / 4 = 1 \/ m / 4 = 2 \/ m / 4 = 3.
Proof. intros. lia. Qed.

Lemma agipd_table : forall qp ag pg unit, List.length qp = 4%nat ->
  agipd_from_quad_positions qp ag pg unit = Ok (map (fun p => map (agipd_tile qp ag pg unit p) (zr 8)) (zr 16)).
Proof.
  intros qp ag pg unit L. unfold agipd_from_quad_positions. cbv zeta. apply mapM_pure. intros p Hp. apply zr_In in Hp.
  change (Z.of_nat 16) with 16 in Hp.
  rewrite (@py_index_nonneg _ qp (p / 4) (q_at qp p)); [|lia|apply q_at_nth; assumption]. cbn [bind].
  assert (Hx : py_index [1; 1; -1; -1] (p / 4) = Ok (q_dir p) /\ py_index [-1; -1; 1; 1] (p / 4) = Ok (- q_dir p)).
  { unfold q_dir. destruct (m_cases Hp) as [E|[E|[E|E]]]; rewrite E; destruct (Z.ltb_spec p 8); try lia; split; reflexivity. }
  destruct Hx as [-> ->]. cbn [bind]. reflexivity.
Qed.

Lemma agipd_spec : forall qp ag pg unit, List.length qp = 4%nat ->
  exists g, agipd_from_quad_positions qp ag pg unit = Ok g /\ full AGIPD g /\
  forall m t tl, tile_at g m t = Some tl -> exists q, nth_error qp (Z.to_nat (m / 4)) = Some q /\
    veq (t_corner tl) (mk_vec (fst q * unit + inject_Z (q_dir m) * inject_Z t * (64 * pixel_size AGIPD + ag * unit))
                              (snd q * unit - inject_Z (m mod 4) * (128 * pixel_size AGIPD + pg * unit)) 0)%Q /\
    veq (t_ss tl) (mk_vec (inject_Z (q_dir m) * unit) 0 0)%Q /\
    veq (t_fs tl) (mk_vec 0 (- inject_Z (q_dir m) * unit) 0)%Q.
Proof.
  intros qp ag pg unit L. eexists. split; [apply agipd_table; exact L|]. split.
  - apply (@table_full AGIPD). intros; split; reflexivity.
  - intros m t tl H. apply table_at in H. destruct H as (Hm & Ht & ->). exists (q_at qp m). split; [apply q_at_nth; assumption|].
    unfold agipd_tile, veq, vmul. cbn [t_corner t_ss t_fs vx vy vz]. rewrite inject_Z_opp. cbn [frag_ss frag_fs pixel_size].
    change (inject_Z 64) with 64%Q. change (inject_Z 128) with 128%Q.
    repeat split; try ring; field.
Qed.

Lemma agipd_missing : forall qp ag pg unit, (List.length qp < 4)%nat -> agipd_from_quad_positions qp ag pg unit = Err EIndexError.
Proof. intros qp ag pg unit L. do 4 (destruct qp as [|? qp]; [reflexivity|]). cbn in L. lia. Qed.

(** ** Order of rounded positions *)

Lemma half_even_mono : forall q q' z z', half_even q z -> half_even q' z' -> (q <= q')%Q -> z <= z'.
Proof.
  intros q q' z z' H H' L. destruct (Z.le_gt_cases z z') as [|G]; [assumption|exfalso].
  destruct H as [H E]. destruct H' as [H' E']. unfold nearest in *.
  apply Qabs_Qle_condition in H. apply Qabs_Qle_condition in H'.
  assert (L1 : z <= z' + 1). { rewrite Zle_Qle. rewrite inject_Z_plus. change (inject_Z 1) with 1%Q. lra. }
  assert (z = z' + 1) by lia. subst z. rewrite inject_Z_plus in *. change (inject_Z 1) with 1%Q in *.
  assert (A : Z.even (z' + 1) = true). { apply E. rewrite Qabs_neg; lra. }
  assert (B : Z.even z' = true). { apply E'. rewrite Qabs_pos; lra. }
  rewrite Z.even_add, B in A. discriminate.
Qed.

Lemma half_even_shift : forall q z k, Z.even k = true -> half_even q z -> half_even (q + inject_Z k) (z + k).
Proof.
  intros q z k Hk [H E]. unfold half_even, nearest. rewrite inject_Z_plus.
  assert (X : (q + inject_Z k - (inject_Z z + inject_Z k) == q - inject_Z z)%Q) by ring. rewrite X.
  split; [exact H|]. intros Y. rewrite Z.even_add, Hk, (E Y). reflexivity.
Qed.

Lemma half_even_gap : forall q q' z z' k, Z.even k = true -> half_even q z -> half_even q' z' -> (q + inject_Z k <= q')%Q -> z + k <= z'.
Proof. intros q q' z z' k Hk H H' L. exact (half_even_mono (half_even_shift Hk H) H' L). Qed.

Lemma half_even_ext : forall q q' z, (q == q')%Q -> half_even q z -> half_even q' z.
Proof. intros q q' z E [H1 H2]. unfold half_even, nearest in *. rewrite <- E. auto. Qed.

Lemma half_even_int : forall z, half_even (inject_Z z) z.
Proof.
  intros z. unfold half_even, nearest. assert (X : (inject_Z z - inject_Z z == 0)%Q) by ring. rewrite X. split; [cbn; lra|].
  intros C. vm_compute in C. discriminate.
Qed.

Lemma ps_nz : forall d, ~ (pixel_size d == 0)%Q.
Proof. intros [] C; vm_compute in C; discriminate. Qed.

(** the steps of a tile on the grid *)
Definition step_is (d : detector) (v : vec) (p : Z * Z) : Prop :=
  (vx v == inject_Z (snd p) * pixel_size d /\ vy v == inject_Z (fst p) * pixel_size d)%Q.

Lemma px_square : forall rs d, d <> DSSC -> (fst (pixel_shape rs d) == pixel_size d /\ snd (pixel_shape rs d) == pixel_size d)%Q.
Proof. intros rs [] H; [| |congruence]; split; reflexivity. Qed.

Lemma step_rounds : forall rs d v p, d <> DSSC -> step_is d v p ->
  np_around (vx v / fst (pixel_shape rs d)) = snd p /\ np_around (vy v / snd (pixel_shape rs d)) = fst p.
Proof.
  intros rs d v p Hd [E1 E2]. destruct (px_square rs Hd) as [P1 P2]. pose proof (@ps_nz d).
  split; (eapply half_even_unique; [apply np_around_half_even|]).
  - eapply half_even_ext; [|apply half_even_int]. rewrite E1, P1. field. assumption.
  - eapply half_even_ext; [|apply half_even_int]. rewrite E2, P2. field. assumption.
Qed.

Lemma rounded_steps : forall rs d tl ss fs, d <> DSSC -> step_is d (t_ss tl) ss -> step_is d (t_fs tl) fs ->
  og_ss (rounded (pixel_shape rs d) tl) = ss /\ og_fs (rounded (pixel_shape rs d) tl) = fs.
Proof.
  intros rs d tl ss fs Hd H1 H2. unfold rounded, swap, round_xy. cbn [og_ss og_fs fst snd].
  destruct (@step_rounds rs d _ _ Hd H1) as [-> ->]. destruct (@step_rounds rs d _ _ Hd H2) as [-> ->].
  destruct ss, fs. split; reflexivity.
Qed.

(** ** AGIPD with positions in pixels *)

Section AgipdPixels.
Variables (rs : Q) (qp : list (Q * Q)) (ag pg : Q) (g : geometry).
Hypothesis L : List.length qp = 4%nat.
Hypothesis Eg : agipd_from_quad_positions qp ag pg (pixel_size AGIPD) = Ok g.
Let px := pixel_shape rs AGIPD.

Lemma agipd_px_steps : forall m t tl, tile_at g m t = Some tl ->
  og_ss (rounded px tl) = (0, q_dir m) /\ og_fs (rounded px tl) = (- q_dir m, 0).
Proof.
  intros m t tl H. destruct (agipd_spec ag pg (pixel_size AGIPD) L) as (g' & E' & _ & S). rewrite Eg in E'. injection E' as <-.
  destruct (S m t tl H) as (q & _ & _ & (S1 & S2 & _) & (F1 & F2 & _)). cbn [vx vy] in *.
  apply rounded_steps; [discriminate| |]; split; cbn [fst snd].
  - rewrite S1. ring.
  - rewrite S2. ring.
  - rewrite F1. ring.
  - rewrite F2, inject_Z_opp. ring.
Qed.

Lemma q_dir_cases : forall m, q_dir m = 1 \/ q_dir m = -1.
Proof. intros m. unfold q_dir. destruct (m <? 8); auto. Qed.

Lemma agipd_px_snappable : snappable px g.
Proof.
  intros m t tl H. exists (rounded px tl). split; [apply rounded_snaps|].
  destruct (agipd_px_steps H) as [E1 E2]. left. rewrite E1, E2. cbn [fst snd]. destruct (q_dir_cases m) as [-> | ->]; lia.
Qed.

Lemma agipd_px_corner : forall m t tl, tile_at g m t = Some tl -> exists q, nth_error qp (Z.to_nat (m / 4)) = Some q /\
  half_even (fst q + inject_Z (q_dir m) * inject_Z t * (64 + ag)) (snd (og_corner (rounded px tl))) /\
  half_even (snd q - inject_Z (m mod 4) * (128 + pg)) (fst (og_corner (rounded px tl))).
Proof.
  intros m t tl H. destruct (agipd_spec ag pg (pixel_size AGIPD) L) as (g' & E' & _ & S). rewrite Eg in E'. injection E' as <-.
  destruct (S m t tl H) as (q & Hq & (C1 & C2 & _) & _). cbn [vx vy] in *. exists q. split; [exact Hq|].
  unfold px. cbn [rounded og_corner swap round_xy fst snd]. split; (eapply half_even_ext; [|apply np_around_half_even]).
  - rewrite C1. unfold px, pixel_shape. cbn [fst snd pixel_size]. field.
  - rewrite C2. unfold px, pixel_shape. cbn [fst snd pixel_size]. field.
Qed.

Lemma agipd_no_overlap : (0 <= ag)%Q -> (0 <= pg)%Q ->
  forall m t s f m' t' s' f' y x, m / 4 = m' / 4 -> covers px AGIPD g m t s f y x -> covers px AGIPD g m' t' s' f' y x ->
  m = m' /\ t = t' /\ s = s' /\ f = f'.
Proof.
  intros Hag Hpg m t s f m' t' s' f' y x Hq Hc Hc'.
  apply covers_iff in Hc. destruct Hc as (tl & Ht & [Hs Hf] & Ec).
  apply covers_iff in Hc'. destruct Hc' as (tl' & Ht' & [Hs' Hf'] & Ec').
  destruct (agipd_px_steps Ht) as [S1 F1]. destruct (agipd_px_steps Ht') as [S2 F2].
  destruct (agipd_px_corner Ht) as (q & Q1 & X1 & Y1). destruct (agipd_px_corner Ht') as (q' & Q2 & X2 & Y2).
  assert (Full : full AGIPD g). { destruct (agipd_spec ag pg (pixel_size AGIPD) L) as (g' & E' & Fu & _). rewrite Eg in E'. injection E' as <-. exact Fu. }
  destruct (fits_at (proj1 Full) Ht) as (Rm & Rt & _). destruct (fits_at (proj1 Full) Ht') as (Rm' & Rt' & _).
  rewrite Hq in Q1. rewrite Q1 in Q2. injection Q2 as <-.
  assert (Hd : q_dir m' = q_dir m). { unfold q_dir. destruct (Z.ltb_spec m 8), (Z.ltb_spec m' 8); lia. }
  rewrite Hd in *.
  unfold cell in Ec, Ec'. rewrite S1, F1 in Ec. rewrite S2, F2 in Ec'.
  set (cy := fst (og_corner (rounded px tl))) in *. set (cx := snd (og_corner (rounded px tl))) in *.
  set (cy' := fst (og_corner (rounded px tl'))) in *. set (cx' := snd (og_corner (rounded px tl'))) in *.
  cbn [fst snd] in Ec, Ec'. apply pair_equal_spec in Ec, Ec'. cbn [frag_ss frag_fs n_tiles] in *.
  (* distance between modules *)
  assert (DY : forall a b za zb, 0 <= a -> 0 <= b -> half_even (snd q - inject_Z a * (128 + pg)) za -> half_even (snd q - inject_Z b * (128 + pg)) zb ->
                a < b -> zb + 128 <= za).
  { intros a b za zb Ha Hb Ea Eb Lab. apply (half_even_gap (k := 128) eq_refl Eb Ea). change (inject_Z 128) with 128%Q.
    assert (Lq : (inject_Z a + 1 <= inject_Z b)%Q) by (change 1%Q with (inject_Z 1); rewrite <- inject_Z_plus, <- Zle_Qle; lia).
    assert (P : (0 <= (inject_Z b - inject_Z a - 1) * (128 + pg))%Q) by (apply Qmult_le_0_compat; lra). lra. }
  assert (DX : forall a b za zb, half_even (fst q + inject_Z a * (64 + ag)) za -> half_even (fst q + inject_Z b * (64 + ag)) zb ->
                a < b -> za + 64 <= zb).
  { intros a b za zb Ea Eb Lab. apply (half_even_gap (k := 64) eq_refl Ea Eb). change (inject_Z 64) with 64%Q.
    assert (Lq : (inject_Z a + 1 <= inject_Z b)%Q) by (change 1%Q with (inject_Z 1); rewrite <- inject_Z_plus, <- Zle_Qle; lia).
    assert (P : (0 <= (inject_Z b - inject_Z a - 1) * (64 + ag))%Q) by (apply Qmult_le_0_compat; lra). lra. }
  assert (Em : m mod 4 = m' mod 4).
  { destruct (Z.lt_trichotomy (m mod 4) (m' mod 4)) as [G|[G|G]]; [|exact G|]; exfalso.
    - pose proof (DY (m mod 4) (m' mod 4) cy cy' ltac:(lia) ltac:(lia) Y1 Y2 G). destruct (q_dir_cases m) as [D|D]; rewrite D in *; lia.
    - pose proof (DY (m' mod 4) (m mod 4) cy' cy ltac:(lia) ltac:(lia) Y2 Y1 G). destruct (q_dir_cases m) as [D|D]; rewrite D in *; lia. }
  assert (m = m') by lia. subst m'.
  assert (X1' : half_even (fst q + inject_Z (q_dir m * t) * (64 + ag)) cx) by (rewrite inject_Z_mult; exact X1).
  assert (X2' : half_even (fst q + inject_Z (q_dir m * t') * (64 + ag)) cx') by (rewrite inject_Z_mult; exact X2).
  assert (Et : t = t').
  { destruct (Z.lt_trichotomy (q_dir m * t) (q_dir m * t')) as [G|[G|G]].
    - exfalso. pose proof (DX _ _ _ _ X1' X2' G). destruct (q_dir_cases m) as [D|D]; rewrite D in *; lia.
    - destruct (q_dir_cases m) as [D|D]; rewrite D in *; lia.
    - exfalso. pose proof (DX _ _ _ _ X2' X1' G). destruct (q_dir_cases m) as [D|D]; rewrite D in *; lia. }
  subst t'. rewrite Ht in Ht'. injection Ht' as <-. unfold cx', cy' in *. clear X2 Y2 X2' X1' DX DY cx' cy'. 
  destruct (q_dir_cases m) as [D|D]; rewrite D in *; repeat split; lia.
Qed.
End AgipdPixels.
