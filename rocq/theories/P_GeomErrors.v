(** When geometry files are refused: C52 (CrystFEL files) and C70 (files with positions of modules and tiles). *)

From Coq Require Import QArith Qround.
From Verif Require Import Base L_Base M_Geom S_Geom L_Geom1 L_Geom2 L_Geom3 L_Geom4 L_Geom5 M_Crystfel S_Crystfel P_Geom.

Local Open Scope string_scope.
Local Open Scope Z_scope.
Local Open Scope list_scope.

(** If each step succeeds or fails with one error, so does the whole. *)
Lemma mapM_one_error : forall A B (f : A -> res B) (P : A -> Prop) e l, (forall a, In a l -> (P a /\ exists b, f a = Ok b) \/ (~ P a /\ f a = Err e)) ->
  ((forall a, In a l -> P a) /\ exists r, mapM f l = Ok r) \/ (~ (forall a, In a l -> P a) /\ mapM f l = Err e).
Proof.
  intros A B f P e. induction l as [|x l IH]; intros H; [left; split; [intros a []|eexists; reflexivity]|]. cbn [mapM].
  destruct (H x (or_introl eq_refl)) as [(Px & b & ->)|(Px & ->)]; cbn [bind].
  - destruct IH as [(Pl & r & ->)|(Pl & ->)]; [intros a I; apply H; now right| |]; cbn [bind].
    + left. split; [intros a [<-|I]; auto|eexists; reflexivity].
    + right. split; [intros K; apply Pl; intros a I; apply K; now right|reflexivity].
  - right. split; [intros K; apply Px, K; now left|reflexivity].
Qed.
Lemma in_quad_modules : forall q m, In (q, m) quad_modules <-> 1 <= q <= 4 /\ 1 <= m <= 4.
Proof.
  intros q m. split.
  - intros H. vm_compute in H. repeat (destruct H as [H|H]; [injection H as <- <-; lia|]). destruct H.
  - intros [H1 H2]. assert (q = 1 \/ q = 2 \/ q = 3 \/ q = 4) as H by lia. assert (m = 1 \/ m = 2 \/ m = 3 \/ m = 4) as H' by lia.
    destruct H as [-> | [-> | [-> | ->]]]; destruct H' as [-> | [-> | [-> | ->]]]; vm_compute; tauto.
Qed.
Lemma in_numbers : forall n t, In t (map (fun i => i + 1) (zr n)) <-> 1 <= t <= Z.of_nat n.
Proof.
  intros n t. unfold zr. rewrite map_map, in_map_iff. split.
  - intros (i & <- & I). apply in_seq in I. lia.
  - intros H. exists (Z.to_nat (t - 1)). split; [lia|]. apply in_seq. lia.
Qed.
Lemma py_index_some : forall A (l : list A) k, 0 <= k < Z.of_nat (List.length l) -> exists a, py_index l k = Ok a.
Proof.
  intros A l k H. destruct (nth_error l (Z.to_nat k)) as [a|] eqn:E; [|apply nth_error_None in E; lia]. exists a. apply py_index_nonneg; [lia|assumption].
Qed.

(** A position is there for each module and each of its [n] tiles. *)
Definition all_positions (n : Z) (f : h5geom) : Prop := forall q m, 1 <= q <= 4 -> 1 <= m <= 4 ->
  h5_module f q m <> None /\ forall t, 1 <= t <= n -> h5_tile f q m t <> None.

Lemma all_positions_in : forall n f, all_positions n f <->
  (forall qm, In qm quad_modules -> h5_module f (fst qm) (snd qm) <> None /\ forall t, 1 <= t <= n -> h5_tile f (fst qm) (snd qm) t <> None).
Proof.
  intros n f. split.
  - intros H [q m] I. apply in_quad_modules in I as [I1 I2]. exact (H q m I1 I2).
  - intros H q m I1 I2. apply (H (q, m)). now apply in_quad_modules.
Qed.

(** The three readers accept a file if and only if nothing is missing; if the number of quadrants is wrong, it is an
    AssertionError, if a dataset is missing, a KeyError. *)
Theorem C70_lpd_accepts : forall f qp unit,
  (List.length qp <> 4%nat -> lpd_from_h5 f qp unit = Err EAssertionError) /\
  (List.length qp = 4%nat -> all_positions 16 f -> exists g, lpd_from_h5 f qp unit = Ok g) /\
  (List.length qp = 4%nat -> ~ all_positions 16 f -> lpd_from_h5 f qp unit = Err EKeyError).
Proof.
  intros f qp unit. unfold lpd_from_h5. destruct (Nat.eqb_spec (List.length qp) 4) as [L|L]; cbn [negb].
  2: { split; [reflexivity|]. split; intros H; contradiction. }
  split; [intros H; contradiction|]. rewrite all_positions_in.
  match goal with |- context [mapM ?F quad_modules] => set (G := F) end.
  destruct (@mapM_one_error _ _ G (fun qm => h5_module f (fst qm) (snd qm) <> None /\ forall t, 1 <= t <= 16 -> h5_tile f (fst qm) (snd qm) t <> None) EKeyError quad_modules) as [(H & r & E)|(H & E)].
  - intros [q m] I. apply in_quad_modules in I as [I1 I2]. unfold G. cbn [fst snd]. destruct (@py_index_some _ qp (q - 1)) as (p & ->); [lia|]. cbn [bind].
    destruct (h5_module f q m) as [mp|]; cbn [get_key bind]; [|right; split; [intros [K _]; now apply K|reflexivity]].
    match goal with |- context [mapM ?F ?l] => destruct (@mapM_one_error _ _ F (fun t => h5_tile f q m t <> None) EKeyError l) as [(H & r & E)|(H & E)] end.
    + intros t _. destruct (h5_tile f q m t); cbn [get_key bind]; [left; split; [discriminate|eexists; reflexivity]|right; split; [intros K; now apply K|reflexivity]].
    + left. split; [split; [discriminate|]|eauto]. intros t Ht. apply H. apply in_numbers. exact Ht.
    + right. split; [|exact E]. intros [_ K]. apply H. intros t Ht. apply K. now apply in_numbers in Ht.
  - split; [eauto|]. intros _ K. contradiction.
  - split; [intros _ K; contradiction|auto].
Qed.
Print Assumptions C70_lpd_accepts.
Theorem C70_dssc_accepts : forall rs f qp unit,
  (List.length qp <> 4%nat -> dssc_from_h5 rs f qp unit = Err EAssertionError) /\
  (List.length qp = 4%nat -> all_positions 2 f -> exists g, dssc_from_h5 rs f qp unit = Ok g) /\
  (List.length qp = 4%nat -> ~ all_positions 2 f -> dssc_from_h5 rs f qp unit = Err EKeyError).
Proof.
  intros rs f qp unit. unfold dssc_from_h5. destruct (Nat.eqb_spec (List.length qp) 4) as [L|L]; cbn [negb].
  2: { split; [reflexivity|]. split; intros H; contradiction. }
  split; [intros H; contradiction|]. rewrite all_positions_in.
  match goal with |- context [mapM ?F quad_modules] => set (G := F) end.
  destruct (@mapM_one_error _ _ G (fun qm => h5_module f (fst qm) (snd qm) <> None /\ forall t, 1 <= t <= 2 -> h5_tile f (fst qm) (snd qm) t <> None) EKeyError quad_modules) as [(H & r & E)|(H & E)].
  - intros [q m] I. apply in_quad_modules in I as [I1 I2]. unfold G. cbn [fst snd]. destruct (@py_index_some _ qp (q - 1)) as (p & ->); [lia|]. cbn [bind].
    destruct (h5_module f q m) as [mp|]; cbn [get_key bind]; [|right; split; [intros [K _]; now apply K|reflexivity]].
    destruct (@py_index_some _ [-1; -1; 1; 1] (q - 1)) as (xo & ->); [cbn [List.length]; lia|].
    destruct (@py_index_some _ [1; 1; -1; -1] (q - 1)) as (yo & ->); [cbn [List.length]; lia|]. cbn [bind].
    match goal with |- context [mapM ?F ?l] => destruct (@mapM_one_error _ _ F (fun t => h5_tile f q m t <> None) EKeyError l) as [(H & r & E)|(H & E)] end.
    + intros t _. destruct (h5_tile f q m t); cbn [get_key bind]; [left; split; [discriminate|eexists; reflexivity]|right; split; [intros K; now apply K|reflexivity]].
    + left. split; [split; [discriminate|]|eauto]. intros t Ht. apply H. cbn [In]. lia.
    + right. split; [|exact E]. intros [_ K]. apply H. intros t Ht. apply K. cbn [In] in Ht. lia.
  - split; [eauto|]. intros _ K. contradiction.
  - split; [intros _ K; contradiction|auto].
Qed.
Print Assumptions C70_dssc_accepts.
Theorem C70_invert_accepts : forall f,
  (In "DetectorDescribtion" (h5_description f) /\ all_positions 16 f -> exists f', invert_lpd f = Ok f') /\
  (~ (In "DetectorDescribtion" (h5_description f) /\ all_positions 16 f) -> invert_lpd f = Err EKeyError).
Proof.
  intros f. unfold invert_lpd. destruct (str_in "DetectorDescribtion" (h5_description f)) eqn:S; cbn [negb].
  2: { assert (N : ~ In "DetectorDescribtion" (h5_description f)) by (intros K; apply str_in_iff in K; congruence). split; [intros [K _]; contradiction|reflexivity]. }
  apply str_in_iff in S. rewrite all_positions_in.
  match goal with |- context [mapM ?F quad_modules] => set (G := F) end.
  destruct (@mapM_one_error _ _ G (fun qm => h5_module f (fst qm) (snd qm) <> None /\ forall t, 1 <= t <= 16 -> h5_tile f (fst qm) (snd qm) t <> None) EKeyError quad_modules) as [(H & r & E)|(H & E)].
  - intros [q m] I. unfold G, all_keys. cbn [fst snd].
    destruct (h5_module f q m) as [mp|]; cbn [get_key bind]; [|right; split; [intros [K _]; now apply K|reflexivity]].
    match goal with |- context [mapM ?F ?l] => destruct (@mapM_one_error _ _ F (fun t => h5_tile f q m t <> None) EKeyError l) as [(H & r & E)|(H & E)] end.
    + intros t _. destruct (h5_tile f q m t); cbn [get_key bind]; [left; split; [discriminate|eexists; reflexivity]|right; split; [intros K; now apply K|reflexivity]].
    + left. rewrite E. split; [split; [discriminate|]|eexists; reflexivity]. intros t Ht. apply H. apply in_numbers. exact Ht.
    + right. rewrite E. split; [|reflexivity]. intros [_ K]. apply H. intros t Ht. apply K. now apply in_numbers in Ht.
  - rewrite E. cbn [bind]. split; [eauto|]. intros K. exfalso. auto.
  - rewrite E. cbn [bind]. split; [intros [_ K]; contradiction|auto].
Qed.
Print Assumptions C70_invert_accepts.
Definition ex_h5_gap : h5geom := mk_h5geom ["DetectorDescribtion"] (h5_module ex_h5) (fun q m t => if (q =? 2) && (m =? 3) && (t =? 16) then None else h5_tile ex_h5 q m t).
Example C70_accepts_example : all_positions 16 ex_h5 /\ ~ all_positions 16 ex_h5_gap /\ all_positions 2 ex_h5_gap /\
  lpd_from_h5 ex_h5_gap ex_quads (1 # 1000) = Err EKeyError.
Proof.
  split; [intros q m _ _; split; discriminate|]. split; [intros H; destruct (H 2 3) as [_ K]; [lia|lia|]; apply (K 16); [lia|reflexivity]|].
  split; [|vm_compute; reflexivity]. intros q m Hq Hm. split; [discriminate|]. intros t Ht. cbn [ex_h5_gap h5_tile]. replace (t =? 16) with false by lia. rewrite andb_false_r. discriminate.
Qed.

(** ** Reading a CrystFEL file *)
(** What a panel must have: numbers, and whole numbers for its rows and columns. *)
Definition panel_numbers : list string := ["res"; "cnx"; "cny"; "coffset"; "ssx"; "ssy"; "ssz"; "fsx"; "fsy"; "fsz"].
Definition panel_ints : list string := ["max_ss"; "min_ss"; "max_fs"; "min_fs"].
Definition panel_complete (d : cf_dict) : Prop := forall k, In k (panel_numbers ++ panel_ints) -> dict_get k d <> None.
Definition panel_typed (d : cf_dict) : Prop :=
  (forall k v, In k panel_numbers -> dict_get k d = Some v -> (exists q, v = CNum q) \/ (exists z, v = CInt z)) /\
  (forall k v, In k panel_ints -> dict_get k d = Some v -> exists z, v = CInt z).

Lemma get_num_cases : forall d k, In k panel_numbers -> panel_typed d ->
  (exists q, get_num d k = Ok q /\ dict_get k d <> None) \/ (get_num d k = Err EKeyError /\ dict_get k d = None).
Proof.
  intros d k I [T _]. unfold get_num. destruct (dict_get k d) as [v|] eqn:E; [|auto]. destruct (T k v I E) as [[q ->]|[z ->]]; left; eexists; (split; [reflexivity|discriminate]).
Qed.
Lemma get_int_cases : forall d k, In k panel_ints -> panel_typed d ->
  (exists z, get_int d k = Ok z /\ dict_get k d <> None) \/ (get_int d k = Err EKeyError /\ dict_get k d = None).
Proof.
  intros d k I [_ T]. unfold get_int. destruct (dict_get k d) as [v|] eqn:E; [|auto]. destruct (T k v I E) as [z ->]. left; eexists; (split; [reflexivity|discriminate]).
Qed.
Lemma panel_outcome : forall d, panel_typed d -> (panel_complete d /\ exists t, from_panel_dict d = Ok t) \/ (~ panel_complete d /\ from_panel_dict d = Err EKeyError).
Proof.
  intros d T. unfold from_panel_dict.
  repeat match goal with
  | |- context [get_num d ?k] => let H := fresh "N" in destruct (@get_num_cases d k ltac:(cbn; tauto) T) as [(? & -> & H)|[-> H]]; cbn [bind];
      [|right; split; [intros K; apply (K k); [cbn; tauto|exact H]|reflexivity]]
  | |- context [get_int d ?k] => let H := fresh "N" in destruct (@get_int_cases d k ltac:(cbn; tauto) T) as [(? & -> & H)|[-> H]]; cbn [bind];
      [|right; split; [intros K; apply (K k); [cbn; tauto|exact H]|reflexivity]]
  end.
  left. split; [|eexists; reflexivity]. intros k I. cbn [panel_numbers panel_ints app In] in I.
  repeat (destruct I as [<- |I]; [assumption|]). destruct I.
Qed.
(** A file of panels with values of the right types is read if and only if it has a panel of the right name for each
    tile, with all of its parameters; otherwise it is a KeyError. *)
Definition all_panels (d : detector) (f : cffile) : Prop := forall m t, 0 <= m < n_modules d -> 0 <= t < n_tiles d ->
  exists pd, dict_get (panel_name m t) (cf_panels (load_crystfel f)) = Some pd /\ panel_complete pd.
Lemma in_zr : forall n t, In t (zr (Z.to_nat n)) <-> 0 <= t < n.
Proof.
  intros n t. unfold zr. rewrite in_map_iff. split; [intros (i & <- & I); apply in_seq in I; lia|]. intros H. exists (Z.to_nat t). split; [lia|]. apply in_seq. lia.
Qed.
Theorem C52_accepts : forall d f, (forall name pd, dict_get name (cf_panels (load_crystfel f)) = Some pd -> panel_typed pd) ->
  (all_panels d f -> exists g, from_crystfel d f = Ok g) /\ (~ all_panels d f -> from_crystfel d f = Err EKeyError).
Proof.
  intros d f T. unfold from_crystfel.
  match goal with |- context [mapM ?F ?l] => destruct (@mapM_one_error _ _ F (fun m => forall t, 0 <= t < n_tiles d ->
    exists pd, dict_get (panel_name m t) (cf_panels (load_crystfel f)) = Some pd /\ panel_complete pd) EKeyError l) as [(H & r & E)|(H & E)] end.
  - intros m _. cbn beta.
    match goal with |- context [mapM ?F ?l] => destruct (@mapM_one_error _ _ F (fun t => exists pd, dict_get (panel_name m t) (cf_panels (load_crystfel f)) = Some pd /\ panel_complete pd) EKeyError l) as [(H & r & E)|(H & E)] end.
    + intros t _. destruct (dict_get (panel_name m t) (cf_panels (load_crystfel f))) as [pd|] eqn:D; [|right; split; [intros (pd & K & _); discriminate|reflexivity]].
      destruct (@panel_outcome pd (T _ _ D)) as [(P & tl & E)|(P & E)]; [left|right]; (split; [|eauto]).
      * eauto.
      * intros (pd' & K & C). injection K as <-. contradiction.
    + left. split; [intros t Ht; apply H; now apply in_zr|eauto].
    + right. split; [|exact E]. intros K. apply H. intros t Ht. apply K. now apply in_zr in Ht.
  - split; [eauto|]. intros K. exfalso. apply K. intros m t Hm Ht. apply H; [now apply in_zr|assumption].
  - split; [|auto]. intros K. exfalso. apply H. intros m Hm t Ht. apply K; [now apply in_zr in Hm|assumption].
Qed.
Print Assumptions C52_accepts.
(** A value of another type is an error in any case. *)
Theorem C52_wrong_type : forall d f m t pd, 0 <= m < n_modules d -> 0 <= t < n_tiles d ->
  dict_get (panel_name m t) (cf_panels (load_crystfel f)) = Some pd -> ~ panel_typed pd ->
  from_crystfel d f = Err ETypeError \/ from_crystfel d f = Err EKeyError.
Proof.
  intros d f m t pd Hm Ht D N.
  assert (ER : forall A B (F : A -> res B) l e, mapM F l = Err e -> (forall a e, In a l -> F a = Err e -> e = ETypeError \/ e = EKeyError) -> e = ETypeError \/ e = EKeyError).
  { clear. intros A B F. induction l as [|x l IH]; intros e H K; [discriminate|]. cbn [mapM] in H. destruct (F x) as [b|e'] eqn:E; cbn [bind] in H.
    - destruct (mapM F l) as [r|e2] eqn:E2; [discriminate|]. cbn [bind] in H. injection H as <-. apply (IH e2 eq_refl). intros a e I. apply K. now right.
    - injection H as <-. apply (K x); [now left|exact E]. }
  assert (PE : forall pd e, from_panel_dict pd = Err e -> e = ETypeError \/ e = EKeyError).
  { clear. intros pd e. unfold from_panel_dict.
    assert (GN : forall k, (exists q, get_num pd k = Ok q) \/ get_num pd k = Err ETypeError \/ get_num pd k = Err EKeyError).
    { intros k. unfold get_num. destruct (dict_get k pd) as [[]|]; eauto. }
    assert (GI : forall k, (exists q, get_int pd k = Ok q) \/ get_int pd k = Err ETypeError \/ get_int pd k = Err EKeyError).
    { intros k. unfold get_int. destruct (dict_get k pd) as [[]|]; eauto. }
    repeat match goal with
    | |- context [get_num pd ?k] => destruct (GN k) as [[? ->]|[-> | ->]]; cbn [bind]; [|intros H; injection H as <-; auto|intros H; injection H as <-; auto]
    | |- context [get_int pd ?k] => destruct (GI k) as [[? ->]|[-> | ->]]; cbn [bind]; [|intros H; injection H as <-; auto|intros H; injection H as <-; auto]
    end. discriminate. }
  assert (OK : forall tl, from_panel_dict pd <> Ok tl).
  { intros tl E. apply N. unfold from_panel_dict in E.
    repeat (apply bind_ok in E as (? & ? & E)). clear E.
    split.
    - intros k v I G. cbn [panel_numbers In] in I. 
      repeat (destruct I as [<- |I]; [match goal with H : get_num pd ?k = _, G : dict_get ?k pd = _ |- _ => unfold get_num in H; rewrite G in H; destruct v; try discriminate; eauto end|]). destruct I.
    - intros k v I G. cbn [panel_ints In] in I. 
      repeat (destruct I as [<- |I]; [match goal with H : get_int pd ?k = _, G : dict_get ?k pd = _ |- _ => unfold get_int in H; rewrite G in H; destruct v; try discriminate; eauto end|]). destruct I. }
  destruct (from_crystfel d f) as [g|e] eqn:E; unfold from_crystfel in E.
  - exfalso. assert (Hm' : nth_error (zr (Z.to_nat (n_modules d))) (Z.to_nat m) = Some m) by (pose proof (@zr_nth (Z.to_nat (n_modules d)) m ltac:(lia)) as Z; exact Z).
    destruct (mapM_Forall E Hm') as (md & E1 & _).
    assert (Ht' : nth_error (zr (Z.to_nat (n_tiles d))) (Z.to_nat t) = Some t) by (pose proof (@zr_nth (Z.to_nat (n_tiles d)) t ltac:(lia)) as Z; exact Z).
    destruct (mapM_Forall E1 Ht') as (tl & E2 & _). rewrite D in E2. exact (OK tl E2).
  - assert (K : e = ETypeError \/ e = EKeyError); [|destruct K as [-> | ->]; auto].
    refine (ER _ _ _ _ _ E _). intros m0 e0 _ E0. refine (ER _ _ _ _ _ E0 _). intros t0 e1 _ E1.
    destruct (dict_get (panel_name m0 t0) (cf_panels (load_crystfel f))); [eapply PE; eassumption|]. injection E1 as <-. auto.
Qed.
Print Assumptions C52_wrong_type.

Definition typedb (d : cf_dict) : bool :=
  forallb (fun k => match dict_get k d with Some (CNum _) | Some (CInt _) | None => true | _ => false end) panel_numbers &&
  forallb (fun k => match dict_get k d with Some (CInt _) | None => true | _ => false end) panel_ints.
Lemma typedb_ok : forall d, typedb d = true -> panel_typed d.
Proof.
  intros d H. apply andb_true_iff in H as [H1 H2]. rewrite forallb_forall in H1, H2. split; intros k v I E.
  - specialize (H1 k I). rewrite E in H1. destruct v; try discriminate; eauto.
  - specialize (H2 k I). rewrite E in H2. destruct v; try discriminate; eauto.
Qed.
Definition ex_dssc : geometry := match dssc_from_h5 (15 # 13) ex_h5 ex_quads (1 # 1000) with Ok g => g | Err _ => [] end.
Definition ex_dssc_file : cffile := match write_crystfel DSSC ex_dssc [DFrame; DModno; DSs; DFs] ex_cf_args with Ok f => f | Err _ => [] end.
(** The file without the line of panel p7a1 which says in which column it starts. *)
Definition ex_dssc_cut : cffile := filter (fun l => negb (String.eqb (fst l) "p7a1/min_fs")) ex_dssc_file.
Example C52_accepts_example :
  (forall name pd, dict_get name (cf_panels (load_crystfel ex_dssc_cut)) = Some pd -> panel_typed pd) /\
  ~ all_panels DSSC ex_dssc_cut /\ from_crystfel DSSC ex_dssc_cut = Err EKeyError /\ exists g, from_crystfel DSSC ex_dssc_file = Ok g.
Proof.
  assert (T : forall name pd, dict_get name (cf_panels (load_crystfel ex_dssc_cut)) = Some pd -> panel_typed pd).
  { assert (A : forallb (fun p => typedb (snd p)) (cf_panels (load_crystfel ex_dssc_cut)) = true) by (vm_compute; reflexivity).
    intros name pd D. apply typedb_ok. rewrite forallb_forall in A. apply dict_get_In in D. exact (A _ D). }
  assert (E : from_crystfel DSSC ex_dssc_cut = Err EKeyError) by (vm_compute; reflexivity).
  split; [exact T|]. split; [|split; [exact E|]].
  - intros K. destruct (C52_accepts DSSC ex_dssc_cut T) as [H _]. destruct (H K) as [g G]. congruence.
  - eexists. vm_compute. reflexivity.
Qed.
