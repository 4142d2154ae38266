(** Shapes and pixels of detector arrays: proofs. *)
From Verif Require Import Base PyStr M_Files M_Machinery M_Reader M_Glob M_Select M_Series M_Stacking M_Nd M_Cxi M_Components M_Grid M_DetDims
  S_Reader S_Coll S_Glob S_Select S_Avail S_Series S_Stacking S_Components S_Grid S_DetDims
  L_Base L_Machinery L_Reader L_Trains L_GetArray L_Select L_SelTrains L_Array2 L_Series L_Validation2
  L_Components L_Components2 L_Components3 L_Components4 L_Components5 L_Components6 L_Components7 L_Components8 L_Components9
  L_Components10 L_Components11 L_Components12 L_Grid L_Grid2 L_Grid3 L_DetDims.
Set Implicit Arguments. Unset Strict Implicit.
Local Open Scope string_scope.
Local Open Scope list_scope.

Lemma concat_item : forall V (l : list (arr V)) a x, concat_trains l = Ok a -> In x l -> arr_nonempty x = true -> ar_item a = ar_item x.
Proof.
  intros V l a x H Hx Hn. unfold concat_trains in H. assert (Hf : In x (filter (@arr_nonempty V) l)) by (apply filter_In; auto).
  destruct (filter (@arr_nonempty V) l) as [|b r]; [destruct Hf|]. destruct (forallb _ r) eqn:E; [|discriminate]. injection H as <-. cbn [ar_item].
  destruct Hf as [->|Hf]; [reflexivity|]. rewrite forallb_forall in E. specialize (E x Hf). now apply zlist_eqb_iff in E.
Qed.
Lemma concat_from : forall V (l : list (arr V)) a fr, concat_trains l = Ok a -> In fr (ar_frames a) -> (forall x, In x l -> ~ In 0%Z (ar_item x)) ->
  exists x, In x l /\ In fr (ar_frames x) /\ arr_nonempty x = true.
Proof.
  intros V l a fr H Hfr Hz. unfold concat_trains in H. destruct (filter (@arr_nonempty V) l) as [|b r] eqn:Ef.
  - destruct l as [|x l]; [discriminate|]. injection H as <-. exists x. split; [now left|]. split; [assumption|].
    unfold arr_nonempty. apply andb_true_iff. split; apply negb_true_iff.
    + apply Nat.eqb_neq. intros E. apply length_zero_iff_nil in E. rewrite E in Hfr. exact Hfr.
    + destruct (z_in 0 (ar_item x)) eqn:E; [|reflexivity]. apply z_in_iff in E. exfalso. exact (Hz x (or_introl eq_refl) E).
  - destruct (forallb _ r); [|discriminate]. injection H as <-. cbn [ar_frames] in Hfr. apply in_flat_map in Hfr as (x & Hx & Hfr).
    assert (Hx' : In x (b :: r)) by (eapply Permutation_in; [symmetry; apply sort_key_perm|exact Hx]). rewrite <- Ef in Hx'. apply filter_In in Hx'. exists x. tauto.
Qed.

Section C.
Context {V : Type}.
Notation faccess := (faccess V).
Notation dcoll := (dcoll V).
Context (first : V -> V) (pulse : V -> Z).
Context (tag : string) (d : dcoll) (nm : option string) (modules : option (list Z)) (min : Z) (m : mpx V).
Context (HD : detector_of tag d nm modules min m).
Let HM := detector_made HD.
Let G := proj1 (proj2 (proj2 HD)).

Lemma frame_shape_item : forall ds : dataset V, frame_shape ds = frame_item (ds_item ds).
Proof. intros ds. unfold frame_shape, frame_item. destruct (ds_item ds) as [|[|[p|p|]|p] r]; reflexivity. Qed.

(** The shape of the array of a module is that of its frames. *)
Lemma module_item : forall s n k arg ps a f t p v, is_module_of d (mx_name m) modules s n -> good_modules first pulse d m modules k ->
  check_pulse_selection arg = Ok ps -> get_module_pulse_data first pulse m s k ps = Ok a -> In (t, p, v) (ar_frames a) ->
  In f (source_files (dc_files (mx_data m)) s) -> In t (fa_tids f) -> ar_item a = frame_item (ds_item (dds f s k)).
Proof.
  intros s n k arg ps a f t p v Hs HG Hps Ha Hfr Hf Hft. destruct (HG s n Hs) as [HF HL]. destruct (chunks_ok HM) as (C1 & C2 & C3).
  assert (Hdata : forall f, In f (source_files (dc_files (mx_data m)) s) -> has_data f s k) by (intros f0 H0; exact (proj1 (fs_data HM HF H0))).
  assert (Hz : forall f, In f (source_files (dc_files (mx_data m)) s) -> ~ In 0%Z (ds_item (dds f s k))) by (intros f0 H0; exact (proj1 (proj2 (fs_data HM HF H0)))).
  apply (module_data_spec first pulse Hdata (desired_nonneg Hps) C2) in Ha as [_ Ha].
  destruct (concat_from Ha Hfr) as (x & Hx & Hxf & Hxn).
  { intros x Hx. apply in_map_iff in Hx as (fc & <- & Hfc). destruct (@part_in V m s k fc Hfc) as (Hf0 & _). unfold part_arr, chunk_arr, part. cbn [ar_item].
    intros H0. apply (Hz _ Hf0). unfold frame_shape in H0. destruct (ds_item (dds (fst fc) s k)) as [|[|[q|q|]|q] r]; try exact H0. now right. }
  rewrite (concat_item Ha Hx Hxn). apply in_map_iff in Hx as (fc & <- & Hfc). destruct (@part_in V m s k fc Hfc) as (Hf0 & _).
  assert (Ht : In t (map (@frame_train V) (ar_frames (part_arr first pulse s k ps fc)))) by (apply in_map_iff; exists (t, p, v); auto).
  destruct (@part_trains V first pulse m s k ps Hdata fc t Hfc Ht) as [_ Ht2].
  assert (E : fst fc = f). { exact (@flat_unique _ (@fa_tids V) _ (fst fc) f t (fs_nodup G HM s) Hf0 Hf Ht2 Hft). }
  unfold part_arr, chunk_arr, part. cbn [ar_item]. rewrite E. apply frame_shape_item.
Qed.

(** Rows of the files, and frames. *)
Lemma row_frame : forall k arg n t p v,
  det_frame first pulse d m modules k arg n t p v <->
  exists item raw, det_row pulse d m modules k arg n t p item raw /\ v = match item with 1%Z :: _ => first raw | _ => raw end.
Proof.
  intros k arg n t p v. split.
  - intros (s & f & pulses & rows & i & Hs & Ht & Hh & (prows & drows & ds & H1 & -> & H2 & H3 & ->) & Hp & Hv & Hc).
    rewrite nth_error_map in Hv. destruct (nth_error drows i) as [raw|] eqn:Er; [|discriminate]. injection Hv as <-.
    exists (ds_item ds), raw. split; [|reflexivity]. exists s, f, prows, drows, ds, i. tauto.
  - intros (item & raw & (s & f & prows & rows & ds & i & Hs & Ht & Hh & H1 & H2 & H3 & -> & Hp & Hv & Hc) & ->).
    exists s, f, (map pulse prows), (map (frame_of first ds) rows), i. repeat (split; [assumption|]). split.
    + exists prows, rows, ds. tauto.
    + split; [assumption|]. split; [|assumption]. rewrite nth_error_map, Hv. reflexivity.
Qed.

Theorem grid_item : forall k arg g, good_modules first pulse d m modules k -> usable_sel arg -> starts_with "image." k = true ->
  det_get_grid first pulse m k arg = Ok (PulseGrid g) ->
  forall n t p item v, det_row pulse d m modules k arg n t p item v -> dg_item g = frame_item item.
Proof.
  intros k arg g HG Hu Hk H n t p item raw Hrow. assert (RL := grid_rel HD HG Hu Hk).
  destruct (det_get_array first pulse m k arg) as [r0|e0] eqn:E0; [|congruence]. destruct RL as (l & cs & -> & Eg & Hi & HR).
  assert (Hfr : det_frame first pulse d m modules k arg n t p (match item with 1%Z :: _ => first raw | _ => raw end)) by (apply row_frame; eauto).
  destruct (det_array_inv HD Hk E0) as (ps & l0 & Hps & El & Hf & Hin). injection El as <-.
  destruct (det_array_spec HD HG Hu Hk E0) as (l' & El & Sm & Im & _). injection El as <-.
  assert (Hn : In n (map fst l)). { apply Im. destruct Hrow as (s & _ & _ & _ & _ & _ & Hs & _). eauto. }
  apply in_map_iff in Hn as ([n' a] & En & Ha). simpl in En. subst n'.
  assert (Hfa := proj2 (@frames_are V first pulse tag d nm modules min m HD k arg l HG Hu Hk E0 n a Ha t p _) Hfr).
  assert (Ei : dg_item g = ar_item a).
  { rewrite H in Eg. unfold concat_modules in Eg. rewrite Hi in Eg.
    destruct (join_axis (map (fun p => gr_trains (snd p)) cs)) as [ts|]; [|discriminate]. cbn [bind] in Eg.
    destruct (join_axis (map (fun p => gr_pulses (snd p)) cs)) as [qs|]; [|discriminate]. cbn [bind] in Eg. injection Eg as ->. cbn [dg_item].
    destruct (Forall2_In_l HR Ha) as ([n' c] & Hc & (_ & H2 & _)). cbn [snd] in H2. rewrite <- H2. symmetry.
    exact (@first_item_same (Z * grid V) (fun p => gr_item (snd p)) cs Hi (n', c) Hc). }
  rewrite Ei. destruct Hrow as (s & f & prows & rows & ds & i & Hs & Ht & Hh & H1 & H2 & H3 & -> & Hp & Hv & Hc).
  destruct (Hin n a Ha) as (s' & Hs' & Hget). assert (s' = s) by (eapply (module_unique HD); eassumption). subst s'.
  destruct (proj2 (det_holds HM Hs f Ht) Hh) as [Hf1 Hf2].
  rewrite (@module_item s n k arg ps a f t p _ Hs HG Hps Hget Hfa Hf1 Hf2).
  destruct (HG s n Hs) as [HF _]. destruct (fs_data HM HF Hf1) as (_ & _ & Hmf & Ho).
  assert (Eds : dds f s k = ds); [|now rewrite Eds].
  unfold dds, dset, fa_dataset. rewrite ds_path_inst. now rewrite H3.
Qed.
Lemma concat_item_some : forall (l : list (arr V)) a, concat_trains l = Ok a -> exists x, In x l /\ ar_item a = ar_item x.
Proof.
  intros l a H. unfold concat_trains in H. destruct (filter (@arr_nonempty V) l) as [|b r] eqn:Ef.
  - destruct l as [|x l]; [discriminate|]. injection H as <-. exists x. split; [now left|reflexivity].
  - destruct (forallb _ r); [|discriminate]. injection H as <-. exists b. split; [|reflexivity].
    assert (X : In b (filter (@arr_nonempty V) l)) by (rewrite Ef; now left). apply filter_In in X. tauto.
Qed.
Lemma grid_known : forall k arg g, good_modules first pulse d m modules k -> usable_sel arg -> starts_with "image." k = true ->
  det_get_grid first pulse m k arg = Ok (PulseGrid g) -> known_shape (dg_item g).
Proof.
  intros k arg g HG Hu Hk H. assert (RL := grid_rel HD HG Hu Hk).
  destruct (det_get_array first pulse m k arg) as [r0|e0] eqn:E0; [|congruence]. destruct RL as (l & cs & -> & Eg & Hi & HR).
  destruct (det_array_inv HD Hk E0) as (ps & l0 & Hps & El & Hf & Hin). injection El as <-.
  rewrite H in Eg. unfold concat_modules in Eg. rewrite Hi in Eg.
  destruct (join_axis (map (fun p => gr_trains (snd p)) cs)) as [ts|]; [|discriminate]. cbn [bind] in Eg.
  destruct (join_axis (map (fun p => gr_pulses (snd p)) cs)) as [qs|]; [|discriminate]. cbn [bind] in Eg. injection Eg as ->. cbn [dg_item].
  destruct HR as [|[n a] [n' c] l cs (H1 & H2 & _) HR]; [left; reflexivity|]. cbn [first_item snd] in *. rewrite H2.
  destruct (Hin n a (or_introl eq_refl)) as (s & Hs & Ha). destruct (HG s n Hs) as [HF HL]. destruct (chunks_ok HM) as (C1 & C2 & C3).
  apply (module_data_spec first pulse (fun f Hf => proj1 (fs_data HM HF Hf)) (desired_nonneg Hps) C2) in Ha as [Hok Ha].
  destruct (concat_item_some Ha) as (x & Hx & ->). apply in_map_iff in Hx as ([f c0] & <- & Hfc). destruct (@part_in V m s k (f, c0) Hfc) as (Hf0 & Hc0 & Hm0).
  destruct (proj2 (Hok f c0 Hf0 Hc0) Hm0) as (K & _). exact K.
Qed.
End C.

(** ** Pixels *)
Section P.
Context {A : Type}.
Notation pixels := (list nat -> A).
Context (pulse : pixels -> Z).
Context (tag : string) (d : dcoll pixels) (nm : option string) (modules : option (list Z)) (min : Z) (m : mpx pixels).
Context (HD : detector_of tag d nm modules min m).

Lemma nth_cell3 : forall B (c : list (list (list B))) i j l, nth_error (nth j (nth i c []) []) l =
  match nth_error c i with Some r => match nth_error r j with Some q => nth_error q l | None => None end | None => None end.
Proof.
  intros B c i j l. destruct (nth_error c i) as [r|] eqn:E.
  - rewrite (nth_error_nth c i [] E). destruct (nth_error r j) as [q|] eqn:E'; [now rewrite (nth_error_nth r j [] E')|].
    rewrite (nth_overflow r []) by now apply nth_error_None. now destruct l.
  - rewrite (nth_overflow c []) by now apply nth_error_None. destruct j, l; reflexivity.
Qed.
Lemma nth_cell2 : forall B (c : list (list B)) i j, nth_error (nth i c []) j = match nth_error c i with Some r => nth_error r j | None => None end.
Proof.
  intros B c i j. destruct (nth_error c i) as [r|] eqn:E; [now rewrite (nth_error_nth c i [] E)|].
  rewrite (nth_overflow c []) by now apply nth_error_None. now destruct j.
Qed.

Theorem det_pixels : forall k arg x, good_modules first_pixels pulse d m modules k -> usable_sel arg -> starts_with "image." k = true ->
  det_get_xarray pulse m k arg = Ok x ->
  exists ms ts ps shape names,
    xa_dims x = "module" :: "train" :: "pulse" :: names /\ frame_names (List.length shape) names /\
    xa_shape x = List.length ms :: List.length ts :: List.length ps :: map Z.to_nat shape /\
    StronglySorted Z.lt ms /\ StronglySorted Z.lt ts /\ StronglySorted Z.lt ps /\
    (forall n, In n ms <-> exists s, is_module_of d (mx_name m) modules s n) /\
    (forall t, In t ts <-> exists n p item v, det_row pulse d m modules k arg n t p item v) /\
    (forall p, In p ps <-> exists n t item v, det_row pulse d m modules k arg n t p item v) /\
    (forall n t p item v, det_row pulse d m modules k arg n t p item v -> shape = frame_item item) /\
    (forall i j l n t p, nth_error ms i = Some n -> nth_error ts j = Some t -> nth_error ps l = Some p -> forall idx a,
       xa_at x (i :: j :: l :: idx) = Some a <->
       exists item v, det_row pulse d m modules k arg n t p item v /\ a = v (row_index item idx)).
Proof.
  intros k arg x HG Hu Hk H. unfold det_get_xarray in H. apply bind_ok in H as (r & Hr & H). injection H as <-.
  destruct (proj2 (proj2 (grid_spec HD HG Hu Hk)) r Hr) as (g & -> & G1 & G2 & G3 & G4 & G5 & G6 & G7 & G8).
  exists (dg_modules g), (dg_trains g), (dg_pulses g), (dg_item g), (List.tl (guess_dims (S (List.length (dg_item g))))).
  cbn [det_xarray xa_dims xa_shape xa_at List.app]. split; [reflexivity|]. split.
  { assert (K := grid_known HD HG Hu Hk Hr). unfold frame_names. destruct K as [K|[K|K]]; rewrite K; simpl; tauto. }
  split; [reflexivity|]. split; [assumption|]. split; [assumption|]. split; [assumption|]. split; [assumption|].
  assert (E : forall n t p v, det_frame first_pixels pulse d m modules k arg n t p v <->
     exists item raw, det_row pulse d m modules k arg n t p item raw /\ v = match item with 1%Z :: _ => first_pixels raw | _ => raw end).
  { intros. apply row_frame. }
  split; [|split; [|split]].
  - intros t. rewrite G5. split.
    + intros (n & p & v & X). apply E in X as (item & raw & X & _). exists n, p, item, raw. exact X.
    + intros (n & p & item & v & X). exists n, p, (match item with 1%Z :: _ => first_pixels v | _ => v end). apply E. eauto.
  - intros p. rewrite G6. split.
    + intros (n & t & v & X). apply E in X as (item & raw & X & _). exists n, t, item, raw. exact X.
    + intros (n & t & item & v & X). exists n, t, (match item with 1%Z :: _ => first_pixels v | _ => v end). apply E. eauto.
  - intros n t p item v X. exact (grid_item HD HG Hu Hk Hr X).
  - intros i j l n t p Hi Hj Hl idx a. rewrite nth_cell3. assert (X := G8 i j l n t p Hi Hj Hl). unfold cell3 in X.
    destruct (match nth_error (dg_cells g) i with Some r => match nth_error r j with Some q => nth_error q l | None => None end | None => None end) as [[v|]|] eqn:Ec.
    + split.
      * intros Y. injection Y as <-. destruct (proj1 (E n t p v) (proj1 (X v) eq_refl)) as (item & raw & R & ->). exists item, raw. split; [assumption|].
        destruct item as [|[|[q|q|]|q] r]; reflexivity.
      * intros (item & raw & R & ->). f_equal. assert (Y := proj2 (X _) (proj2 (E n t p _) (ex_intro _ item (ex_intro _ raw (conj R eq_refl))))).
        injection Y as ->. destruct item as [|[|[q|q|]|q] r]; reflexivity.
    + split; [discriminate|]. intros (item & raw & R & ->). assert (Y := proj2 (X _) (proj2 (E n t p _) (ex_intro _ item (ex_intro _ raw (conj R eq_refl))))). discriminate.
    + split; [discriminate|]. intros (item & raw & R & ->). assert (Y := proj2 (X _) (proj2 (E n t p _) (ex_intro _ item (ex_intro _ raw (conj R eq_refl))))). discriminate.
Qed.

Theorem det_train_pixels : forall k arg x, starts_with "image." k = false -> det_get_xarray pulse m k arg = Ok x ->
  exists ms ts shape names,
    xa_dims x = "module" :: "trainId" :: names /\ List.length names = List.length shape /\
    (forall i name, nth_error names i = Some name -> name = ("dim_" ++ str_of_int (Z.of_nat i))%string) /\
    xa_shape x = List.length ms :: List.length ts :: map Z.to_nat shape /\
    StronglySorted Z.lt ms /\ (forall n, In n ms <-> exists s, is_module_of d (mx_name m) modules s n) /\
    (forall t, In t ts <-> exists s n a, is_module_of d (mx_name m) modules s n /\ get_array (mx_data m) s k = Ok a /\ In t (la_labels a)) /\
    (forall i n s, nth_error ms i = Some n -> is_module_of d (mx_name m) modules s n ->
      exists a, get_array (mx_data m) s k = Ok a /\ la_item a = shape /\
        (la_labels a = ts -> forall j v idx, nth_error (la_rows a) j = Some v -> xa_at x (i :: j :: idx) = Some (v idx)) /\
        (NoDup (la_labels a) -> forall j t idx b, nth_error ts j = Some t ->
           (xa_at x (i :: j :: idx) = Some b <-> exists q v, nth_error (la_labels a) q = Some t /\ nth_error (la_rows a) q = Some v /\ b = v idx))).
Proof.
  intros k arg x Hk H. unfold det_get_xarray in H. apply bind_ok in H as (r & Hr & H). injection H as <-.
  destruct (train_grid_spec HD Hk Hr) as (g & -> & G1 & G2 & G3 & G4 & _ & G6 & G7).
  exists (tg_modules g), (tg_trains g), (tg_item g), (map (fun i => "dim_" ++ str_of_int (Z.of_nat i))%string (seq 0 (List.length (tg_item g)))).
  cbn [det_xarray xa_dims xa_shape xa_at List.app]. split; [reflexivity|]. split; [now rewrite map_length, seq_length|]. split.
  { intros i name Hi. rewrite nth_error_map in Hi. destruct (nth_error (seq 0 _) i) as [i'|] eqn:Ei; [|discriminate]. injection Hi as <-.
    assert (Hlt : (i < List.length (seq 0 (List.length (tg_item g))))%nat) by (apply nth_error_Some; congruence). rewrite seq_length in Hlt.
    rewrite (nth_error_nth' _ 0%nat) in Ei by (rewrite seq_length; lia). rewrite seq_nth in Ei by lia. injection Ei as <-. reflexivity. }
  split; [reflexivity|]. split; [assumption|]. split; [assumption|]. split; [assumption|].
  intros i n s Hi Hs. destruct (G3 s n Hs) as (a & Ha & Hit). exists a. split; [assumption|]. split; [assumption|].
  destruct (G7 i n s a Hi Hs Ha) as [Q1 Q2]. split.
  - intros El j v idx Hv. rewrite nth_cell2. assert (X := Q1 El j). unfold cell2 in X. rewrite X, Hv. reflexivity.
  - intros HN j t idx b Hj. rewrite nth_cell2. assert (X := Q2 HN j t Hj). unfold cell2 in X.
    destruct (match nth_error (tg_cells g) i with Some r => nth_error r j | None => None end) as [[v|]|].
    + split.
      * intros Y. injection Y as <-. destruct (proj1 (X v) eq_refl) as (q & Y1 & Y2). eauto.
      * intros (q & v' & Y1 & Y2 & ->). assert (Y := proj2 (X v') (ex_intro _ q (conj Y1 Y2))). injection Y as ->. reflexivity.
    + split; [discriminate|]. intros (q & v' & Y1 & Y2 & ->). assert (Y := proj2 (X v') (ex_intro _ q (conj Y1 Y2))). discriminate.
    + split; [discriminate|]. intros (q & v' & Y1 & Y2 & ->). assert (Y := proj2 (X v') (ex_intro _ q (conj Y1 Y2))). discriminate.
Qed.
End P.
