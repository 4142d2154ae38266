(** Rounding errors with the deprecated LPD geometry: C108. *)

From Coq Require Import QArith Qround Qabs.
From Verif Require Import Base L_Base M_Cxi M_GeomFloat S_GeomFloat L_GeomFloat L_GeomFloat3 L_GeomFloat5 L_CrystText3
  M_OldGeom S_OldGeom L_OldGeom P_OldGeom M_OldFloat S_OldFloat L_OldFloat.
Local Open Scope string_scope.
Local Open Scope Z_scope.
Local Open Scope list_scope.

(** ** C108: rounding with the deprecated LPD geometry *)

(** With any arithmetic which keeps float64's precision, images are those of exact arithmetic if no tile is within 1e-8
    pixels of a pixel boundary.  Positions are up to 5 m, tiles up to three names down. *)
Theorem C108_clear : forall A fl (nan : A) file positions unit g floating shape data, float64 fl ->
  (1 # 10 ^ 6 <= unit)%Q -> (unit <= 1)%Q -> (forall p, In p positions -> pos_small unit p) ->
  (forall q items m h, dict_get q file = Some items -> In (m, HG h) items -> group_small unit h) ->
  from_h5_file_and_quad_positions file positions unit = Ok g -> well_named g -> lpd_tree g -> depth_three g -> offsets_clear (1 # 10 ^ 8) g ->
  exists gf, from_h5_file_and_quad_positions_fl fl file positions (fl unit) = Ok gf /\
    position_all_modules_fl fl nan floating gf shape data = position_all_modules nan floating g shape data.
Proof.
  intros A fl nan file positions unit g floating shape data F W1 W2 HP HF E W T D C. pose proof (read_r F W1 W2 HP HF) as R. rewrite E in R.
  destruct (from_h5_file_and_quad_positions_fl fl file positions (fl unit)) as [gf|]; [|contradiction]. exists gf. split; [reflexivity|]. now apply image_fl.
Qed.
Print Assumptions C108_clear.

(** Wherever the tiles are, offsets in metres are right to 1e-13 m, and the pixel a tile starts at, counted from the
    centre, is the one of exact arithmetic or one next to it. *)
Theorem C108_one_pixel : forall fl file positions unit g, float64 fl ->
  (1 # 10 ^ 6 <= unit)%Q -> (unit <= 1)%Q -> (forall p, In p positions -> pos_small unit p) ->
  (forall q items m h, dict_get q file = Some items -> In (m, HG h) items -> group_small unit h) ->
  from_h5_file_and_quad_positions file positions unit = Ok g -> well_named g ->
  exists gf, from_h5_file_and_quad_positions_fl fl file positions (fl unit) = Ok gf /\
    iter_leaf_paths gf = iter_leaf_paths g /\
    forall p s, leaf_at g p s -> (List.length p <= 3)%nat ->
      exists s', find_offset_fl fl gf p = Ok s' /\ (Qabs (fst s' - fst s) <= 1 # 10 ^ 13)%Q /\ (Qabs (snd s' - snd s) <= 1 # 10 ^ 13)%Q /\
        Z.abs (to_px_fl fl (fst s') - Qfloor (fst s / (1 # 2000))) <= 1 /\ Z.abs (to_px_fl fl (snd s') - Qfloor (snd s / (1 # 2000))) <= 1.
Proof.
  intros fl file positions unit g F W1 W2 HP HF E W. pose proof (read_r F W1 W2 HP HF) as R. rewrite E in R.
  destruct (from_h5_file_and_quad_positions_fl fl file positions (fl unit)) as [gf|]; [|contradiction]. exists gf. split; [reflexivity|].
  split; [exact (frel_paths R)|]. intros p s [o Ho] L. pose proof (offset_r F L R) as P. rewrite (reaches_offset W Ho) in P.
  destruct (find_offset_fl fl gf p) as [s'|]; [|contradiction]. exists s'. split; [reflexivity|]. destruct P as [P1 P2].
  assert (X : (en (List.length p) <= 1 # 10 ^ 13)%Q) by (destruct (List.length p) as [|[|[|[|n]]]]; [| | | |lia]; num).
  split; [exact (Qle_trans _ _ _ (proj1 P1) X)|]. split; [exact (Qle_trans _ _ _ (proj1 P2) X)|]. split; [exact (px_one F L P1)|exact (px_one F L P2)].
Qed.
Print Assumptions C108_one_pixel.

(** What cannot be read, cannot be read with rounding either, for the same reason. *)
Theorem C108_refused : forall fl file positions unit e, float64 fl ->
  (1 # 10 ^ 6 <= unit)%Q -> (unit <= 1)%Q -> (forall p, In p positions -> pos_small unit p) ->
  (forall q items m h, dict_get q file = Some items -> In (m, HG h) items -> group_small unit h) ->
  (from_h5_file_and_quad_positions_fl fl file positions (fl unit) = Err e <-> from_h5_file_and_quad_positions file positions unit = Err e).
Proof.
  intros fl file positions unit e F W1 W2 HP HF. pose proof (read_r F W1 W2 HP HF) as R.
  destruct (from_h5_file_and_quad_positions_fl fl file positions (fl unit)), (from_h5_file_and_quad_positions file positions unit); try contradiction; cbn in R; split; intros H; congruence.
Qed.
Print Assumptions C108_refused.

(** *** Tiles at whole pixels *)

Definition wholeb (q : Q) : bool := Qeq_bool (q * 2000) (inject_Z (Qfloor (q * 2000))).
Lemma wholeb_ok : forall q, wholeb q = true -> (q == inject_Z (Qfloor (q * 2000)) * (1 # 2000))%Q.
Proof. intros q H. apply Qeq_bool_iff in H. rewrite <- H. field. Qed.
Definition clearb (q : Q) : bool := negb (Qle_bool (q - inject_Z (Qfloor q)) (1 # 10 ^ 8)) && negb (Qle_bool (inject_Z (Qfloor q + 1) - q) (1 # 10 ^ 8)).
Lemma clearb_ok : forall q, clearb q = true -> clear_of_whole (1 # 10 ^ 8) q.
Proof.
  intros q H z. apply andb_true_iff in H as [H1 H2]. apply negb_true_iff in H1, H2.
  assert (N1 : (1 # 10 ^ 8 < q - inject_Z (Qfloor q))%Q) by (apply Qnot_le_lt; intros K; apply Qle_bool_iff in K; congruence).
  assert (N2 : (1 # 10 ^ 8 < inject_Z (Qfloor q + 1) - q)%Q) by (apply Qnot_le_lt; intros K; apply Qle_bool_iff in K; congruence).
  destruct (Z_le_gt_dec z (Qfloor q)) as [L|G].
  - rewrite Zle_Qle in L. eapply Qlt_le_trans; [exact N1|]. eapply Qle_trans; [|apply Qle_Qabs]. apply Qplus_le_r, Qopp_le_compat. exact L.
  - assert (L : (Qfloor q + 1 <= z)%Z) by lia. rewrite Zle_Qle in L. rewrite Qabs_Qminus. eapply Qlt_le_trans; [exact N2|]. eapply Qle_trans; [|apply Qle_Qabs].
    apply Qplus_le_l. exact L.
Qed.
(** What holds of the offset found for each path holds of each tile. *)
Lemma leaves_ok : forall (f : list string -> Q * Q -> bool) g, well_named g ->
  forallb (fun p => match find_offset g p with Ok s => f p s | Err _ => false end) (iter_leaf_paths g) = true -> forall p s, leaf_at g p s -> f p s = true.
Proof.
  intros f g W H p s Hs. rewrite forallb_forall in H. assert (I : In p (iter_leaf_paths g)) by (apply leaf_paths_spec; eauto). specialize (H p I).
  destruct Hs as [o Ho]. now rewrite (reaches_offset W Ho) in H.
Qed.

(** The other geometries keep tiles at whole pixels where they are (C106_whole_pixels).  This one does not: an offset of k
    half millimetres can be taken for k - 1 pixels, because float64 of 0.0005 is a little more than 0.0005. *)
Theorem C108_whole_pixels_refuted :
  (forall q items, dict_get q ex_file = Some items -> NoDup (map fst items) /\ forall m h, In (m, HG h) items -> group_named h) /\
  from_h5_file_and_quad_positions ex_file ex_quads (1 # 1000) = Ok ex_geom /\
  (forall p s, leaf_at ex_geom p s -> exists x y : Z, fst s == inject_Z x * (1 # 2000) /\ snd s == inject_Z y * (1 # 2000))%Q /\
  plotting_dimensions ex_geom = Ok ((1082, 1160), (364, 580)) /\
  exists gf, from_h5_file_and_quad_positions_fl binary64 ex_file ex_quads (binary64 (1 # 1000)) = Ok gf /\
    plotting_dimensions_fl binary64 gf = Ok ((1081, 1161), (364, 581)) /\
    exists s', find_offset_fl binary64 gf (tile_names 0 1) = Ok s' /\ to_px_fl binary64 (snd s') = -527 /\
      exists x0, tile_start ex_geom (0, 0) 0 1 x0 (-526).
Proof.
  destruct ex_geom_tree as [W T].
  split; [exact ex_file_named|]. split; [exact ex_read|]. split.
  { intros p s Hs. pose proof (@leaves_ok (fun _ s => wholeb (fst s) && wholeb (snd s)) ex_geom W ltac:(vm_compute; reflexivity) p s Hs) as H. cbv beta in H.
    apply andb_true_iff in H as [H1 H2]. exists (Qfloor (fst s * 2000)), (Qfloor (snd s * 2000)). split; apply wholeb_ok; assumption. }
  split; [vm_compute; reflexivity|]. eexists. split; [vm_compute; reflexivity|]. split; [vm_compute; reflexivity|]. eexists. split; [vm_compute; reflexivity|].
  split; [vm_compute; reflexivity|]. destruct (T 0 1 ltac:(unfold tile_number; lia)) as [s Hs]. exists (Qfloor (fst s / (1 # 2000)) + 0), s. split; [exact Hs|]. split; [reflexivity|].
  destruct Hs as [o Ho]. pose proof (reaches_offset W Ho) as E. assert (X : match find_offset ex_geom (tile_names 0 1) with Ok s => Qfloor (snd s / (1 # 2000)) | Err _ => 0 end = -526) by (vm_compute; reflexivity).
  rewrite E in X. rewrite X. reflexivity.
Qed.
Print Assumptions C108_whole_pixels_refuted.

(** *** Tiles clear of the boundaries *)
Definition clear_quads : list (Q * Q) := map (fun q => (fst q + (1 # 4), snd q + (1 # 8)))%Q ex_quads.
Definition clear_geom : frag := match from_h5_file_and_quad_positions ex_file clear_quads (1 # 1000) with Ok g => g | Err _ => Frag (0, 0)%Q [] end.
Lemma clear_read : from_h5_file_and_quad_positions ex_file clear_quads (1 # 1000) = Ok clear_geom.
Proof. vm_compute. reflexivity. Qed.
Lemma clear_tree : well_named clear_geom /\ lpd_tree clear_geom.
Proof.
  destruct (C75_read _ _ _ _ ex_file_named clear_read) as [W H]. split; [exact W|].
  intros c t Hn. destruct (ex_tile c t Hn) as (m & p & q & F & N). destruct (H c t (fst q + (1 # 4), snd q + (1 # 8))%Q m p (proj1 (proj1 Hn))) as (s & L & _); [|exact F|eauto].
  unfold clear_quads. rewrite nth_error_map, N. reflexivity.
Qed.
Definition smallb (u : Q) (p : Q * Q) : bool := Qle_bool (Qabs (fst p * u)) 5 && Qle_bool (Qabs (snd p * u)) 5.
Lemma smallb_ok : forall u p, smallb u p = true -> pos_small u p.
Proof. intros u p H. apply andb_true_iff in H as [H1 H2]. split; now apply Qle_bool_iff. Qed.
Lemma clear_small : (forall p, In p clear_quads -> pos_small (1 # 1000) p) /\
  (forall q items m h, dict_get q ex_file = Some items -> In (m, HG h) items -> group_small (1 # 1000) h).
Proof.
  split.
  - intros p Hp. apply smallb_ok. assert (X : forallb (smallb (1 # 1000)) clear_quads = true) by (vm_compute; reflexivity). rewrite forallb_forall in X. auto.
  - intros q items m h E Hm.
    assert (X : forallb (fun qi => forallb (fun it => match snd it with HG (HGroup (Some p) gs) => smallb (1 # 1000) p &&
       forallb (fun nh => match snd nh with HGroup (Some p) [] => smallb (1 # 1000) p | _ => false end) gs | _ => false end) (snd qi)) ex_file = true) by (vm_compute; reflexivity).
    rewrite forallb_forall in X. apply dict_get_In in E. specialize (X _ E). cbn [snd] in X. rewrite forallb_forall in X. specialize (X _ Hm). cbn [snd] in X.
    destruct h as [[p|] gs]; [|discriminate]. apply andb_true_iff in X as [X1 X2]. constructor.
    + intros x Ex. injection Ex as <-. now apply smallb_ok.
    + intros n g Hg. rewrite forallb_forall in X2. specialize (X2 _ Hg). cbn [snd] in X2. destruct g as [[p'|] [|? ?]]; try discriminate. constructor.
      * intros x Ex. injection Ex as <-. now apply smallb_ok.
      * intros ? ? [].
Qed.
Lemma clear_offsets : depth_three clear_geom /\ offsets_clear (1 # 10 ^ 8) clear_geom.
Proof.
  split; intros p s Hs.
  - pose proof (@leaves_ok (fun p _ => Nat.leb (List.length p) 3) clear_geom (proj1 clear_tree) ltac:(vm_compute; reflexivity) p s Hs) as H. now apply Nat.leb_le.
  - pose proof (@leaves_ok (fun _ s => clearb (fst s / (1 # 2000)) && clearb (snd s / (1 # 2000))) clear_geom (proj1 clear_tree) ltac:(vm_compute; reflexivity) p s Hs) as H.
    apply andb_true_iff in H as [H1 H2]. split; now apply clearb_ok.
Qed.
(** The same file with positions a quarter and an eighth of a millimetre off: float64 gives the exact image. *)
Example C108_clear_example : exists gf out size centre,
  from_h5_file_and_quad_positions_fl binary64 ex_file clear_quads (binary64 (1 # 1000)) = Ok gf /\
  position_all_modules_fl binary64 None true gf (16, 256, 256) ex_data = Ok (out, size, centre) /\
  position_all_modules None true clear_geom (16, 256, 256) ex_data = Ok (out, size, centre) /\ size = (1160, 1082) /\ centre = (364, 580).
Proof.
  destruct clear_tree as [W T]. destruct clear_small as [S1 S2]. destruct clear_offsets as [D C].
  destruct (C108_clear _ binary64 None ex_file clear_quads (1 # 1000) clear_geom true (16, 256, 256) ex_data binary64_float64
    ltac:(num) ltac:(num) S1 S2 clear_read W T D C) as (gf & E & H).
  assert (X : match position_all_modules None true clear_geom (16, 256, 256) ex_data with Ok (_, size, centre) => Some (size, centre) | Err _ => None end = Some ((1160, 1082), (364, 580)))
    by (vm_compute; reflexivity).
  destruct (position_all_modules None true clear_geom (16, 256, 256) ex_data) as [[[out size] centre]|]; [|discriminate]. injection X as -> ->.
  exists gf, out, (1160, 1082), (364, 580). repeat split; assumption.
Qed.
(** A file without the first quadrant is refused. *)
Example C108_refused_example : from_h5_file_and_quad_positions_fl binary64 [] clear_quads (binary64 (1 # 1000)) = Err EKeyError.
Proof.
  apply C108_refused; [exact binary64_float64|num|num|exact (proj1 clear_small)|discriminate|reflexivity].
Qed.
