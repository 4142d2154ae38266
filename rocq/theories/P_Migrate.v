(** The deprecated and the present LPD geometry of the same file (C95).  The deprecated code has x to the right and y
    downwards, the present one x to the left and y upwards, and invert_xfel_lpd_geom converts files. *)
From Coq Require Import QArith Qround Qabs Lqa.
From Verif Require Import Base M_OldGeom S_OldGeom L_OldGeom M_Geom S_Geom L_Base L_Geom1 L_Geom2 L_Geom4 L_Geom5 L_Plot P_OldGeom P_Geom.
Set Implicit Arguments.
Local Open Scope string_scope.
Local Open Scope Z_scope.
Local Open Scope list_scope.

(** The HDF5 file as the deprecated code sees it, groups by name, and as the present code does, positions by number. *)
Definition same_file (file : list (string * list (string * hitem))) (f : h5geom) : Prop :=
  forall c t, tile_number c t -> exists m p, file_tile file c t m p /\ h5_module f (quad_of c) (mod_of c) = Some m /\ h5_tile f (quad_of c) (mod_of c) t = Some p.
(** In the deprecated code a tile is turned by 180 degrees: the point r rows and k columns from the start of its data is
    32 - r rows and 128 - k columns of half a millimetre from its position. *)
Definition old_point (s : Q * Q) (r k : Q) : Q * Q := (fst s + (128 - k) * (1 # 2000), snd s + (32 - r) * (1 # 2000))%Q.
Definition negated (l : list (Q * Q)) : list (Q * Q) := map (fun p => (- fst p, - snd p)%Q) l.
Definition well_written (file : list (string * list (string * hitem))) : Prop :=
  forall q items, dict_get q file = Some items -> NoDup (map fst items) /\ forall m h, In (m, HG h) items -> group_named h.

(** Every point of every tile keeps its place, in coordinates which point the other way. *)
Theorem C95_layout : forall file f f' positions old new, well_written file -> same_file file f ->
  from_h5_file_and_quad_positions file positions (1 # 1000) = Ok old ->
  invert_lpd f = Ok f' -> lpd_from_h5 f' (negated positions) (1 # 1000) = Ok new ->
  well_named old /\ lpd_tree old /\ full LPD new /\
  forall c t, tile_number c t -> exists s tl, leaf_at old (tile_names c t) s /\ tile_at new c (t - 1) = Some tl /\
    forall r k, veq (point tl r k) (mk_vec (- fst (old_point s r k)) (- snd (old_point s r k)) 0)%Q.
Proof.
  intros file f f' positions old new WW SF HO HI HN.
  destruct (C75_read _ _ _ _ WW HO) as [W R]. destruct (C70_lpd _ _ _ _ HN) as [F N].
  assert (L4 : List.length positions = 4%nat).
  { unfold lpd_from_h5 in HN. destruct (Nat.eqb_spec (List.length (negated positions)) 4) as [E|]; [|discriminate]. unfold negated in E. now rewrite map_length in E. }
  assert (ALL : forall c t, tile_number c t -> exists s tl, leaf_at old (tile_names c t) s /\ tile_at new c (t - 1) = Some tl /\
    forall r k, veq (point tl r k) (mk_vec (- fst (old_point s r k)) (- snd (old_point s r k)) 0)%Q).
  { intros c t T. destruct (SF c t T) as (m & p & Hf & H1 & H2). destruct T as [Hc Ht].
    assert (Hd : 0 <= c / 4 < 4) by (split; [apply Z.div_pos; lia|apply Z.div_lt_upper_bound; lia]).
    assert (Hm : 0 <= c mod 4 < 4) by (apply Z.mod_pos_bound; lia).
    destruct (nth_error positions (Z.to_nat (c / 4))) as [q|] eqn:Q; [|exfalso; apply nth_error_None in Q; lia].
    destruct (R c t q m p ltac:(lia) Q Hf) as (s & S1 & S2 & S3).
    destruct (@full_at LPD new c (t - 1) F) as [tl Htl]; [lia|cbn; lia|]. exists s, tl. split; [exact S1|]. split; [exact Htl|].
    destruct (N c (t - 1) tl Htl) as (q' & m' & p' & Q' & M' & P' & V1 & V2 & V3).
    unfold negated in Q'. rewrite (map_nth_error _ _ _ Q) in Q'. injection Q' as <-.
    destruct (C70_invert _ _ HI (quad_of c) (mod_of c)) as [(m2 & I1 & I2) I3]; [unfold quad_of; lia|unfold mod_of; lia|].
    destruct (I3 t Ht) as (p2 & J1 & J2). rewrite H1 in I1. injection I1 as <-. rewrite H2 in J1. injection J1 as <-.
    rewrite I2 in M'. injection M' as <-. replace (t - 1 + 1) with t in P' by lia. rewrite J2 in P'. injection P' as <-.
    unfold veq, point in V1, V2, V3. cbn [fst snd vx vy vz] in V1, V2, V3. intros r k. unfold veq, point, old_point. cbn [fst snd vx vy vz]. destruct V1 as (A1 & A2 & A3). destruct V2 as (B1 & B2 & B3). destruct V3 as (C1 & C2 & C3).
    change (pixel_size LPD) with (5 # 10000)%Q in *.
    rewrite B1, C1 in A1. rewrite B2, C2 in A2. rewrite B3, C3 in A3. rewrite B1, B2, B3, C1, C2, C3, S2, S3. repeat split; lra. }
  split; [exact W|]. split; [intros c t T; destruct (ALL c t T) as (s & _ & A & _); eauto|]. split; [exact F|exact ALL].
Qed.
Print Assumptions C95_layout.

(** Images of the same data: each pixel is found in both, with the same value unless other tiles cover it, in the one at
    the place opposite to that in the other as seen from the centre, or next to it: positions are rounded down by the
    deprecated code and to the nearest pixel by the present one.  Cell x covers the places from x to x + 1. *)
Theorem C95_images : forall file f f' positions old new rs, well_written file -> same_file file f ->
  from_h5_file_and_quad_positions file positions (1 # 1000) = Ok old ->
  invert_lpd f = Ok f' -> lpd_from_h5 f' (negated positions) (1 # 1000) = Ok new ->
  forall A (nan : A) data, exists out size cx cy img cy' cx',
    position_all_modules nan true old (16, 256, 256) data = Ok (out, size, (cx, cy)) /\
    position_modules_fast nan rs LPD new (16, 256, 256) data None = Ok (img, (cy', cx')) /\
    forall c t r k, tile_number c t -> 0 <= r < 32 -> 0 <= k < 128 -> exists y x y' x' y0 x0,
      tile_start old (cx, cy) c t x0 y0 /\ y = y0 + 31 - r /\ x = x0 + 127 - k /\
      S_Geom.covers (pixel_shape rs LPD) LPD new c (t - 1) r k (y' - cy') (x' - cx') /\
      ((forall c' t', tile_number c' t' -> later c t c' t' -> ~ S_OldGeom.covers old (cx, cy) c' t' y x) -> out y x = data c (tile_row t r) (tile_col t k)) /\
      ((forall m' t' s' f', S_Geom.covers (pixel_shape rs LPD) LPD new m' t' s' f' (y' - cy') (x' - cx') -> m' = c /\ t' = t - 1 /\ s' = r /\ f' = k) ->
         img y' x' = data c (tile_row t r) (tile_col t k)) /\
      (- 1 <= (x - cx) + (x' - cx') + 1 <= 0) /\ (- 1 <= (y - cy) + (y' - cy') + 1 <= 0).
Proof.
  intros file f f' positions old new rs WW SF HO HI HN A nan data. destruct (C95_layout positions WW SF HO HI HN) as (W & T & F & L).
  destruct (C75_assembled A nan old data W T) as (out & sy & sx & [cx cy] & E1 & _ & ST & V & _).
  assert (ST2 : forall m t tl, tile_at new m t = Some tl -> og_ss (rounded (pixel_shape rs LPD) tl) = (1, 0) /\ og_fs (rounded (pixel_shape rs LPD) tl) = (0, 1)).
  { intros m t tl H. destruct (C70_lpd _ _ _ _ HN) as [_ N]. destruct (N m t tl H) as (_ & _ & _ & _ & _ & _ & _ & (S1 & S2 & _) & (F1 & F2 & _)). cbn [vx vy] in *.
    apply rounded_steps; [discriminate| |]; split; cbn [fst snd]; [rewrite S1|rewrite S2|rewrite F1|rewrite F2]; ring. }
  assert (SN : snappable (pixel_shape rs LPD) new).
  { intros m t tl H. exists (rounded (pixel_shape rs LPD) tl). split; [apply rounded_snaps|]. destruct (ST2 m t tl H) as [X1 X2]. right. rewrite X1, X2. cbn [fst snd]. lia. }
  assert (FT : fits LPD new) by apply F.
  assert (NE : List.concat new <> []).
  { destruct (L 0 1) as (s & tl & _ & Ht & _); [unfold tile_number; lia|]. intros X. apply tile_at_elim in Ht as (_ & _ & md & M1 & M2).
    assert (I : In tl (List.concat new)) by (apply in_concat; exists md; split; eapply nth_error_In; eassumption). rewrite X in I. exact I. }
  destruct (C50_assembled A rs LPD new FT SN NE) as (H & W' & cy' & cx' & _ & _ & _ & _ & _ & _ & K).
  destruct (K nan data None) as (img & E2 & _); [discriminate|].
  change (position_modules_fast nan rs LPD new (16, 256, 256) data None = Ok (img, (cy', cx'))) in E2.
  exists out, (sy, sx), cx, cy, img, cy', cx'. split; [exact E1|]. split; [exact E2|].
  intros c t r k Tn Hr Hk. destruct (L c t Tn) as (s & tl & Ls & Ht & P).
  assert (TS : tile_start old (cx, cy) c t (Qfloor (fst s / (1 # 2000)) + cx) (Qfloor (snd s / (1 # 2000)) + cy)) by (exists s; auto).
  set (o := rounded (pixel_shape rs LPD) tl). destruct (ST2 c (t - 1) tl Ht) as [X1 X2]. fold o in X1, X2.
  exists (Qfloor (snd s / (1 # 2000)) + cy + 31 - r), (Qfloor (fst s / (1 # 2000)) + cx + 127 - k), (fst (og_corner o) + r + cy'), (snd (og_corner o) + k + cx').
  exists (Qfloor (snd s / (1 # 2000)) + cy), (Qfloor (fst s / (1 # 2000)) + cx). split; [exact TS|]. split; [reflexivity|]. split; [reflexivity|].
  replace (fst (og_corner o) + r + cy' - cy') with (fst (og_corner o) + r) by lia. replace (snd (og_corner o) + k + cx' - cx') with (snd (og_corner o) + k) by lia.
  assert (CO : S_Geom.covers (pixel_shape rs LPD) LPD new c (t - 1) r k (fst (og_corner o) + r) (snd (og_corner o) + k)).
  { exists tl, o. split; [exact Ht|]. split; [unfold in_tile; cbn; lia|]. split; [apply rounded_snaps|]. unfold cell. rewrite X1, X2. cbn [fst snd]. f_equal; lia. }
  split; [exact CO|]. split; [|split; [|]].
  - intros Hl. apply (V c t _ _ r k Tn TS Hr Hk). exact Hl.
  - intros Hu. rewrite (C50_every_pixel A rs LPD new nan data img cy' cx' FT SN E2 c (t - 1) r k _ _ CO Hu).
    unfold data_pixel, tile_row, tile_col. destruct Tn as [_ Tn]. destruct (Z.ltb_spec (t - 1) 8), (Z.leb_spec t 8); try lia; cbn [fst snd]; f_equal; lia.
  - assert (G : forall u q n z, (q == - u - inject_Z n)%Q -> half_even q z -> - 1 <= Qfloor u + z + n <= 0).
    { intros u q n z Eq [Hn _]. unfold nearest in Hn. rewrite Eq in Hn. apply Qabs_Qle_condition in Hn. pose proof (Qfloor_le u) as U1. pose proof (Qlt_floor u) as U2.
      rewrite inject_Z_plus in U2. change (inject_Z 1) with 1%Q in U2. split.
      - apply Z.lt_pred_le. rewrite Zlt_Qlt. rewrite !inject_Z_plus. change (inject_Z (Z.pred (-1))) with (-2)%Q. lra.
      - apply Z.lt_succ_r. rewrite Zlt_Qlt. rewrite !inject_Z_plus. change (inject_Z (Z.succ 0)) with 1%Q. lra. }
    destruct (rounded_snaps (pixel_shape rs LPD) tl) as (R1 & R2 & _). fold o in R1, R2. cbn [pixel_shape fst snd] in R1, R2. change (pixel_size LPD) with (5 # 10000)%Q in *.
    destruct (P 0%Q 0%Q) as (P1 & P2 & _). unfold point, old_point in P1, P2. cbn [vx vy fst snd] in P1, P2.
    assert (Q1 : (vx (t_corner tl) / (1 * (5 # 10000)) == - (fst s / (1 # 2000)) - inject_Z 128)%Q).
    { assert (E : (vx (t_corner tl) == - (fst s + 128 * (1 # 2000)))%Q) by lra. rewrite E. change (inject_Z 128) with 128%Q. field. }
    assert (Q2 : (vy (t_corner tl) / (1 * (5 # 10000)) == - (snd s / (1 # 2000)) - inject_Z 32)%Q).
    { assert (E : (vy (t_corner tl) == - (snd s + 32 * (1 # 2000)))%Q) by lra. rewrite E. change (inject_Z 32) with 32%Q. field. }
    pose proof (G _ _ _ _ Q1 R1). pose proof (G _ _ _ _ Q2 R2). lia.
Qed.
Print Assumptions C95_images.

(** *** A file, by names and by numbers *)
Definition ex_numbers : h5geom :=
  mk_h5geom ["DetectorDescribtion"] (fun _ m => Some (mm (130 * m) 0)) (fun _ _ t => Some (mm (if t <=? 8 then 0 else 65) (17 * (t mod 8)))).
Definition ex_inverted : h5geom := match invert_lpd ex_numbers with Ok f => f | Err _ => ex_numbers end.
Definition ex_new : geometry := match lpd_from_h5 ex_inverted (negated P_OldGeom.ex_quads) (1 # 1000) with Ok g => g | Err _ => [] end.
Lemma ex_same : same_file ex_file ex_numbers.
Proof.
  intros c t [Hc Ht]. exists (mm (130 * mod_of c) 0), (mm (if t <=? 8 then 0 else 65) (17 * (t mod 8))). split; [|split; reflexivity].
  assert (Hm : 0 <= c mod 4 < 4) by (apply Z.mod_pos_bound; lia). assert (Hd : 0 <= c / 4 < 4) by (split; [apply Z.div_pos; lia|apply Z.div_lt_upper_bound; lia]).
  eexists. exists ex_tiles. split.
  - assert (X : c / 4 = 0 \/ c / 4 = 1 \/ c / 4 = 2 \/ c / 4 = 3) by lia. destruct X as [->|[->|[->| ->]]]; reflexivity.
  - split.
    + apply in_map_iff. exists (c mod 4 + 1). split; [reflexivity|]. assert (X : c mod 4 = 0 \/ c mod 4 = 1 \/ c mod 4 = 2 \/ c mod 4 = 3) by lia.
      destruct X as [->|[->|[->| ->]]]; cbn [In]; lia.
    + apply in_map_iff. exists t. split; [reflexivity|]. cbn [In]. lia.
Qed.
Example C95_example : well_written ex_file /\ same_file ex_file ex_numbers /\
  from_h5_file_and_quad_positions ex_file P_OldGeom.ex_quads (1 # 1000) = Ok ex_geom /\
  (exists f', invert_lpd ex_numbers = Ok f' /\ lpd_from_h5 f' (negated P_OldGeom.ex_quads) (1 # 1000) = Ok ex_new) /\
  match position_all_modules None true ex_geom (16, 256, 256) P_OldGeom.ex_data, position_modules_fast None 1 LPD ex_new (16, 256, 256) P_OldGeom.ex_data None with
  | Ok (out, size, centre), Ok (img, centre') => Some (out 33 65, centre, centre', img (fst centre' + (snd centre - 33) - 1) (snd centre' + (fst centre - 65) - 1))
  | _, _ => None
  end = Some (Some (0, 18, 86), (364, 580), (560, 698), Some (0, 18, 86)).
Proof.
  split; [exact ex_file_named|]. split; [exact ex_same|]. split; [exact ex_read|]. split; [eexists; split; [reflexivity|]; vm_compute; reflexivity|].
  vm_compute. reflexivity.
Qed.
