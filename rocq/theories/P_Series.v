(** C21-C23: counts, series and dask arrays. *)
From Verif Require Import Base PyStr M_Files M_Machinery M_Reader M_Glob M_Select M_Series S_Reader S_Coll S_Avail S_Series
  L_Base L_GetArray L_Select L_Array2 L_Field L_Series L_Check Ex_Files.
Local Open Scope string_scope.
Local Open Scope list_scope.

(** ** Checking file_count on concrete files *)
Fixpoint pos_of (t : Z) (l : list Z) : option nat :=
  match l with
  | [] => None
  | x :: r => if (x =? t)%Z then Some 0%nat else option_map S (pos_of t r)
  end.
Lemma pos_of_spec : forall t l p, pos_of t l = Some p <->
  nth_error l p = Some t /\ (forall q, q < p -> nth_error l q <> Some t)%nat.
Proof.
  intros t; induction l as [|x l IH]; intros p; simpl.
  - split; [discriminate|]. intros [H _]. destruct p; discriminate.
  - destruct (x =? t)%Z eqn:E.
    + apply Z.eqb_eq in E. subst x. split.
      * intros H; injection H as <-. split; [reflexivity|]. intros q Hq; lia.
      * intros [_ H]. destruct p; [reflexivity|]. exfalso. apply (H 0%nat); [lia|reflexivity].
    + apply Z.eqb_neq in E. split.
      * destruct (pos_of t l) as [p'|] eqn:Ep; simpl; [|discriminate]. intros H; injection H as <-.
        destruct (proj1 (IH p') eq_refl) as [H1 H2].
        split; [exact H1|]. intros [|q] Hq; simpl; [congruence|]. apply H2; lia.
      * intros [H1 H2]. destruct p as [|p]; [simpl in H1; congruence|].
        rewrite (proj2 (IH p)); [reflexivity|]. split; [exact H1|]. intros q Hq. apply (H2 (S q)). lia.
Qed.
Definition count_of {V} (f : h5file V) (b : bool) (s k : string) (t : Z) : option Z :=
  match h5_trainid f with
  | None => None
  | Some raw => match pos_of t raw, dict_get (index_key b s k) (h5_index f) with
                | Some p, Some g => entry_count g p
                | _, _ => None
                end
  end.
Lemma count_of_spec : forall V (f : h5file V) b s k t c, file_count f b s k t c <-> count_of f b s k t = Some c.
Proof.
  intros V f b s k t c. unfold count_of. split.
  - intros (raw & p & g & -> & H1 & H2 & -> & H3). rewrite (proj2 (pos_of_spec t raw p) (conj H1 H2)). exact H3.
  - destruct (h5_trainid f) as [raw|] eqn:E1; [|discriminate].
    destruct (pos_of t raw) as [p|] eqn:E2; [|discriminate].
    destruct (dict_get _ _) as [g|] eqn:E3; [|discriminate]. intros H.
    apply pos_of_spec in E2 as [H1 H2]. exists raw, p, g. auto.
Qed.

(** ** C21: get_data_counts *)
Theorem C21_instrument_counts : forall (V : Type) (d : dcoll V) s k,
  reachable d -> distinct_kinds d -> good_files d ->
  In s (dc_inst d) -> readable_index d s k -> available d s k ->
  (forall f, In f (dc_files d) -> In s (fa_sources f) -> fa_tids f <> []) ->
  exists ser, get_data_counts d s k = Ok ser /\ NoDup (map fst ser) /\
    forall t c, In (t, c) ser <->
      In t (dc_tids d) /\ exists f, holds d f s t /\ file_count (fa_file f) false s k t c.
Proof. intros V d s k R K G S I A. apply check_field_iff in A. exact (@get_data_counts_correct V d s k R K G S I A). Qed.
Print Assumptions C21_instrument_counts.

(** The count of a train is the number of rows get_array labels with it. *)
Theorem C21_counts_match_array : forall (V : Type) (d : dcoll V) s k a ser,
  reachable d -> distinct_kinds d -> good_files d -> good_index d s k -> good_data d s k -> In s (dc_inst d) ->
  (forall f, In f (dc_files d) -> In s (fa_sources f) -> fa_tids f <> []) ->
  get_array d s k = Ok a -> get_data_counts d s k = Ok ser ->
  forall t c, In (t, c) ser -> Z.of_nat (List.length (rows_labelled t (la_labels a) (la_rows a))) = c.
Proof.
  intros V d s k a ser Hr Hk Hg Hi Hd Hs Hne Ha Hc t c Hin.
  destruct (reachable_inv Hr) as [Hb Ho]. destruct (inst_not_ctrl Hb Hk Hs) as [Hnc _].
  assert (Hcf : check_field d s k = Ok tt).
  { unfold get_array in Ha. apply bind_ok in Ha as ([] & X & _). exact X. }
  assert (Hri : readable_index d s k).
  { intros f Hf Hsf. destruct (Hi f Hf Hsf) as (g & G1 & G2). exists g. split; [exact G1|apply G2]. }
  destruct (@get_data_counts_correct V d s k Hr Hk Hg Hs Hri Hcf Hne) as (ser' & E & _ & Hiff).
  rewrite Hc in E. injection E as <-. apply Hiff in Hin as [Ht (f & (F1 & F2 & F3) & Hfc)].
  destruct (@get_array_correct V d s k a Hr Hk Hg Hi Ha) as [H1 _].
  destruct (H1 f t F1 F2 F3 Ht) as (raw & p & g & fi & n & ds & R1 & R2 & R3 & R4 & R5 & R6 & R7 & R8).
  rewrite Hnc in *. rewrite R8. destruct Hfc as (raw' & p' & g' & S1 & S2 & S3 & S4 & S5).
  rewrite R1 in S1. injection S1 as <-. rewrite R4 in S4. injection S4 as <-.
  assert (p = p').
  { destruct (Nat.lt_trichotomy p p') as [H|[H|H]]; [|assumption|]; exfalso.
    - exact (S3 _ H R2). - exact (R3 _ H S2). }
  subst p'. rewrite R6 in S5. injection S5 as ->.
  destruct Hd as (dt & it & Hd). destruct (Hd f F1 F2) as (ds' & g' & D1 & _ & _ & D2 & D3). rewrite Hnc in *.
  rewrite R7 in D1. injection D1 as <-. rewrite R4 in D2. injection D2 as <-.
  assert (Hl : (p < List.length (fa_tids f))%nat).
  { rewrite Forall_forall in Ho. unfold good_files in Hg. rewrite Forall_forall in Hg.
    destruct (opened_tids (Ho f F1) (Hg f F1)) as (pad & Q1 & Q2 & Q3). rewrite R1 in Q1. injection Q1 as ->.
    apply In_nth_error in F3 as [q Hq]. destruct (Nat.lt_ge_cases p (List.length (fa_tids f))) as [|G]; [assumption|].
    exfalso. apply (R3 q); [|rewrite nth_error_app1; [assumption|]]; apply nth_error_Some_lt in Hq; lia. }
  specialize (D3 p fi c Hl R5 R6).
  destruct (Hri f F1 F2) as (g' & G1 & G2). rewrite Hnc, R4 in G1. injection G1 as <-.
  destruct G2 as (_ & G2). destruct (G2 p Hl) as (x & y & G3 & G4 & G5 & G6). rewrite R5 in G3. injection G3 as <-.
  rewrite R6 in G4. injection G4 as <-. unfold u64_range in G6.
  rewrite firstn_length, skipn_length. lia.
Qed.
Print Assumptions C21_counts_match_array.

(** For control sources the method is broken: np.ones(train_ids) is an array of
    that shape, so an exception is raised unless the train IDs are [1]. *)
Theorem C21_control_counts_refuted : forall (V : Type) (d : dcoll V) s k,
  In s (dc_ctrl d) -> available d s k ->
  (exists f, In f (dc_files d) /\ In s (fa_sources f) /\ fa_tids f <> [] /\ fa_tids f <> [1%Z]) ->
  get_data_counts d s k = Err EException.
Proof. intros V d s k S A. apply check_field_iff in A. exact (@get_data_counts_ctrl V d s k S A). Qed.
Print Assumptions C21_control_counts_refuted.
(** If an answer is given for a control source it is right: one row per train. *)
Theorem C21_control_counts_one : forall (V : Type) (d : dcoll V) s k ser, In s (dc_ctrl d) -> get_data_counts d s k = Ok ser ->
  forall t n, In (t, n) ser -> n = 1%Z /\ In t (dc_tids d) /\ exists f, In f (dc_files d) /\ In s (fa_sources f) /\ In t (fa_tids f).
Proof.
  intros V d s k ser S H t n Hi. unfold get_data_counts in H. apply bind_ok in H as (u & _ & H). apply bind_ok in H as (parts & Hp & H). apply bind_ok in H as (parts' & Hs & H).
  apply bind_ok in H as (all & Hc & H). injection H as <-. apply filter_In in Hi as [Hi Ht]. apply z_in_iff in Ht.
  apply pd_concat_ok in Hc as [_ ->]. destruct (sort_parts_ok Hs) as [Hperm _]. apply in_concat in Hi as (p & Hp1 & Hp2).
  apply (Permutation_in _ Hperm) in Hp1 || apply (Permutation_in _ (Permutation_sym Hperm)) in Hp1.
  apply mapM_ok_iff in Hp. destruct (Forall2_In_r Hp Hp1) as (f & Hf & E). apply source_files_In in Hf as [Hf1 Hf2].
  unfold counts_part in E. apply str_in_iff in S. rewrite S in E. destruct (fa_tids f) as [|x [|y l]] eqn:Et; [injection E as <-; destruct Hp2| |destruct x as [|[| |]|]; discriminate].
  destruct x as [|[| |]|]; try discriminate. injection E as <-. destruct Hp2 as [X|[]]. injection X as <- <-. split; [reflexivity|]. split; [exact Ht|].
  exists f. rewrite Et. split; [exact Hf1|]. split; [exact Hf2|now left].
Qed.
Print Assumptions C21_control_counts_one.

Example C21_example : reachable run /\ distinct_kinds run /\ good_files run /\
  In "DET:out" (dc_inst run) /\ good_index run "DET:out" "image.data" /\ good_data run "DET:out" "image.data" /\
  (forall f, In f (dc_files run) -> fa_tids f <> []) /\
  get_data_counts run "DET:out" "image.data" = Ok [(10,2);(11,0);(12,3);(13,1);(14,2)]%Z /\
  In "XGM" (dc_ctrl run) /\ available run "XGM" "beam.pos" /\
  get_data_counts run "XGM" "beam.pos" = Err EException.
Proof.
  split; [exact run_reachable|]. split; [apply distinct_kindsb_ok; reflexivity|].
  split; [apply good_filesb_ok; reflexivity|]. split; [apply str_in_iff; reflexivity|].
  split; [apply good_indexb_ok; reflexivity|]. split; [apply good_datab_ok; reflexivity|]. split.
  { intros f Hf. vm_compute in Hf. repeat destruct Hf as [<-|Hf]; try discriminate. destruct Hf. }
  split; [vm_compute; reflexivity|]. split; [apply str_in_iff; reflexivity|].
  split; [apply check_field_iff; vm_compute; reflexivity|vm_compute; reflexivity].
Qed.

(** ** C22: get_series *)
Theorem C22_series_rows : forall (V : Type) (first : V -> V) (pulse : V -> Z) (d : dcoll V) s k ser,
  reachable d -> distinct_kinds d -> good_files d ->
  good_index d s k -> index_from_zero d s k -> (In s (dc_ctrl d) -> good_ctrl d s) ->
  get_series first pulse d s k = Ok ser ->
  (forall f t, holds d f s t -> In t (dc_tids d) ->
     exists rows, file_rows (fa_file f) (str_in s (dc_ctrl d)) s k t rows /\
       ((series_values t ser = rows /\ Forall (eq None) (series_pulses t ser) /\
         ~ (In s (dc_inst d) /\ multi_rows f s k)) \/
        (series_values t ser = map first rows /\ In s (dc_inst d) /\ multi_rows f s k /\
         exists prows, file_rows (fa_file f) false s (pulse_key k) t prows /\
                       series_pulses t ser = map (fun v => Some (pulse v)) prows))) /\
  (forall t, ~ (In t (dc_tids d) /\ exists f, holds d f s t) -> series_values t ser = []).
Proof. intros V first pulse d s k ser. exact (@get_series_correct V first pulse d s k ser). Qed.
Print Assumptions C22_series_rows.

Theorem C22_series_agrees_with_array : forall (V : Type) (first : V -> V) (pulse : V -> Z) (d : dcoll V) s k ser a,
  reachable d -> distinct_kinds d -> good_files d ->
  good_index d s k -> index_from_zero d s k -> (In s (dc_ctrl d) -> good_ctrl d s) ->
  get_series first pulse d s k = Ok ser -> get_array d s k = Ok a ->
  forall t, series_values t ser = rows_labelled t (la_labels a) (la_rows a) \/
            series_values t ser = map first (rows_labelled t (la_labels a) (la_rows a)).
Proof.
  intros V first pulse d s k ser a Hr Hk Hg Hi Hz Hc Hs Ha t.
  destruct (@get_series_correct V first pulse d s k ser Hr Hk Hg Hi Hz Hc Hs) as [S1 S2].
  destruct (@get_array_correct V d s k a Hr Hk Hg Hi Ha) as [A1 A2].
  assert (Hdec : (In t (dc_tids d) /\ exists f, holds d f s t) \/ ~ (In t (dc_tids d) /\ exists f, holds d f s t)).
  { destruct (in_dec Z.eq_dec t (dc_tids d)) as [Ht|Ht]; [|right; tauto].
    destruct (existsb (fun f => z_in t (fa_tids f)) (source_files (dc_files d) s)) eqn:E.
    - left. split; [assumption|]. apply existsb_exists in E as (f & Hf & E). exists f.
      apply source_files_In in Hf as [Hf Hsf]. apply z_in_iff in E. repeat split; assumption.
    - right. intros [_ (f & Hf & Hsf & Htf)]. apply Bool.not_true_iff_false in E. apply E. apply existsb_exists.
      exists f. split; [apply source_files_In; auto|now apply z_in_iff]. }
  destruct Hdec as [[Ht (f & Hh)]|Hno].
  - destruct (S1 f t Hh Ht) as (rows & Hfr & Hv). destruct Hh as (F1 & F2 & F3).
    pose proof (A1 f t F1 F2 F3 Ht) as Hfa. rewrite (L_Trains.file_rows_fun Hfr Hfa) in Hv.
    destruct Hv as [(Hv & _)|(Hv & _)]; auto.
  - left. rewrite S2 by assumption. symmetry. apply A2. exact Hno.
Qed.
Print Assumptions C22_series_agrees_with_array.

Theorem C22_series_exists : forall (V : Type) (first : V -> V) (pulse : V -> Z) (d : dcoll V) s k,
  reachable d -> distinct_kinds d -> good_files d ->
  good_index d s k -> index_from_zero d s k -> (In s (dc_ctrl d) -> good_ctrl d s) -> good_data d s k ->
  available d s k -> has_rows d s k ->
  one_value_per_train d s k \/ one_value_per_pulse d s k ->
  exists ser, get_series first pulse d s k = Ok ser.
Proof. intros V first pulse d s k R K G I I0 C D A. apply check_field_iff in A. exact (@get_series_progress V first pulse d s k R K G I I0 C D A). Qed.
Print Assumptions C22_series_exists.

(** One file without a single row is enough to make get_series fail. *)
Theorem C22_file_without_rows_refuted : forall (V : Type) (first : V -> V) (pulse : V -> Z) (d : dcoll V) s k f,
  reachable d -> distinct_kinds d -> good_files d ->
  In s (dc_inst d) -> readable_index d s k -> In f (dc_files d) -> In s (fa_sources f) ->
  (forall t c, file_count (fa_file f) false s k t c -> c = 0%Z) ->
  forall ser, get_series first pulse d s k <> Ok ser.
Proof.
  intros V first pulse d s k f Hr Hk Hg Hs Hi Hf Hsf Hno ser. destruct (reachable_inv Hr) as [Hb Ho].
  destruct (inst_not_ctrl Hb Hk Hs) as [Hc _].
  exact (@get_series_no_rows V first pulse d s k f Hs Hc Hi Hf Hsf Ho Hg Hno ser).
Qed.
Print Assumptions C22_file_without_rows_refuted.

(** Control data which is no series of one value per train is never returned as
    one: arrays give an exception, and a dataset with fewer rows than the file
    has trains gives ValueError, wherever the file comes in the run. *)
Lemma mapM_one_error : forall A B (g : A -> res B) e l x, In x l -> g x = Err e ->
  (forall y, In y l -> g y = Err e \/ exists b, g y = Ok b) -> mapM g l = Err e.
Proof.
  intros A B g e; induction l as [|y l IH]; intros x Hx E H; [destruct Hx|]. simpl.
  destruct (H y (or_introl eq_refl)) as [->|[b Hb]]; [reflexivity|]. destruct Hx as [<-|Hx]; [congruence|]. rewrite Hb. simpl.
  rewrite (IH x Hx E); [reflexivity|]. intros z Hz. apply H. now right.
Qed.
Lemma series_ctrl_data : forall (V : Type) (f : faccess V) s k ds, dict_get (data_key true s k) (h5_data (fa_file f)) = Some ds ->
  series_ctrl s k f = pd_series (ds_item ds) (train_labels (fa_tids f)) (firstn (List.length (fa_tids f)) (ds_rows ds)).
Proof.
  intros V f s k ds H. unfold series_ctrl, fa_dataset. rewrite L_Reader.ds_path_ctrl, H. reflexivity.
Qed.
Theorem C22_control_arrays : forall (V : Type) (first : V -> V) (pulse : V -> Z) (d : dcoll V) s k,
  reachable d -> In s (dc_ctrl d) -> available d s k ->
  (forall f, In f (dc_files d) -> In s (fa_sources f) -> exists ds, dict_get (data_key true s k) (h5_data (fa_file f)) = Some ds /\ ds_item ds <> []) ->
  get_series first pulse d s k = Err EException.
Proof.
  intros V first pulse d s k R S A H. apply check_field_iff in A. destruct (reachable_inv R) as [Hb _].
  pose proof (source_has_file Hb (check_field_source A)) as Hne. unfold get_series. rewrite A. simpl. apply str_in_iff in S. rewrite S.
  assert (P : forall f, In f (source_files (dc_files d) s) -> series_ctrl s k f = Err EException).
  { intros f Hf. apply source_files_In in Hf as [F1 F2]. destruct (H f F1 F2) as (ds & D1 & D2). rewrite (series_ctrl_data V f s k ds D1).
    unfold pd_series. destruct (ds_item ds); [congruence|reflexivity]. }
  destruct (source_files (dc_files d) s) as [|f fs]; [congruence|]. simpl. now rewrite (P f (or_introl eq_refl)).
Qed.
Print Assumptions C22_control_arrays.
Theorem C22_control_short : forall (V : Type) (first : V -> V) (pulse : V -> Z) (d : dcoll V) s k,
  In s (dc_ctrl d) -> available d s k ->
  (forall f, In f (dc_files d) -> In s (fa_sources f) -> exists ds, dict_get (data_key true s k) (h5_data (fa_file f)) = Some ds /\ ds_item ds = []) ->
  (exists f ds, In f (dc_files d) /\ In s (fa_sources f) /\ dict_get (data_key true s k) (h5_data (fa_file f)) = Some ds /\
     (List.length (ds_rows ds) < List.length (fa_tids f))%nat) ->
  get_series first pulse d s k = Err EValueError.
Proof.
  intros V first pulse d s k S A H (f & ds & F1 & F2 & D & L). apply check_field_iff in A. unfold get_series. rewrite A. simpl. apply str_in_iff in S. rewrite S.
  assert (Hfs : In f (source_files (dc_files d) s)) by (apply source_files_In; auto).
  rewrite (mapM_one_error (faccess V) _ (series_ctrl s k) EValueError _ f Hfs); [reflexivity| |].
  - rewrite (series_ctrl_data V f s k ds D). destruct (H f F1 F2) as (ds' & D1 & D2). rewrite D in D1. injection D1 as <-.
    unfold pd_series. rewrite D2. destruct (Nat.eqb _ _) eqn:E; [|reflexivity].
    apply Nat.eqb_eq in E. unfold train_labels in E. rewrite map_length, firstn_length in E. lia.
  - intros y Hy. apply source_files_In in Hy as [Y1 Y2]. destruct (H y Y1 Y2) as (dy & E1 & E2). rewrite (series_ctrl_data V y s k dy E1), E2.
    unfold pd_series. destruct (Nat.eqb _ _); eauto.
Qed.
Print Assumptions C22_control_short.
Definition cfile (name : string) (tids : list Z) (ds : dataset Z) : h5file Z := mk_h5 name (Some tids) (Some "1.0") None
  (Some ["CONTROL/XGM"])
  [("XGM", mk_ix (map Z.of_nat (seq 0 (List.length tids))) (IxCount (map (fun _ => 1%Z) tids)))]
  [("CONTROL/XGM/pos/value", ds)].
Definition crun_arrays : dcoll Z := force no_coll (open_files [cfile "c0.h5" [5;6]%Z (mk_ds "f4" [3%Z] [1;2]%Z)]).
Definition crun_short : dcoll Z := force no_coll (open_files [cfile "c0.h5" [5;6]%Z (mk_ds "f4" [] [1;2]%Z); cfile "c1.h5" [7;8]%Z (mk_ds "f4" [] [3]%Z)]).
Example C22_control_example : reachable crun_arrays /\ In "XGM" (dc_ctrl crun_arrays) /\ available crun_arrays "XGM" "pos.value" /\
  (forall f, In f (dc_files crun_arrays) -> In "XGM" (fa_sources f) -> exists ds, dict_get (data_key true "XGM" "pos.value") (h5_data (fa_file f)) = Some ds /\ ds_item ds <> []) /\
  reachable crun_short /\ In "XGM" (dc_ctrl crun_short) /\ available crun_short "XGM" "pos.value" /\
  (forall f, In f (dc_files crun_short) -> In "XGM" (fa_sources f) -> exists ds, dict_get (data_key true "XGM" "pos.value") (h5_data (fa_file f)) = Some ds /\ ds_item ds = []) /\
  exists f ds, In f (dc_files crun_short) /\ In "XGM" (fa_sources f) /\ dict_get (data_key true "XGM" "pos.value") (h5_data (fa_file f)) = Some ds /\
     (List.length (ds_rows ds) < List.length (fa_tids f))%nat.
Proof.
  assert (F : dc_files crun_arrays = [force (mk_fa (cfile "" [] (mk_ds "" [] [])) [] [] []) (fa_open (cfile "c0.h5" [5;6]%Z (mk_ds "f4" [3%Z] [1;2]%Z)))]) by reflexivity.
  assert (G : dc_files crun_short = map (fun x => force (mk_fa x [] [] []) (fa_open x)) [cfile "c0.h5" [5;6]%Z (mk_ds "f4" [] [1;2]%Z); cfile "c1.h5" [7;8]%Z (mk_ds "f4" [] [3]%Z)]) by reflexivity.
  split; [apply (@open_files_reachable [cfile "c0.h5" [5;6]%Z (mk_ds "f4" [3%Z] [1;2]%Z)]); reflexivity|].
  split; [apply str_in_iff; reflexivity|]. split; [apply check_field_iff; vm_compute; reflexivity|].
  split. { intros f Hf _. rewrite F in Hf. destruct Hf as [<-|[]]. eexists. split; [vm_compute; reflexivity|discriminate]. }
  split; [apply (@open_files_reachable [cfile "c0.h5" [5;6]%Z (mk_ds "f4" [] [1;2]%Z); cfile "c1.h5" [7;8]%Z (mk_ds "f4" [] [3]%Z)]); reflexivity|].
  split; [apply str_in_iff; reflexivity|]. split; [apply check_field_iff; vm_compute; reflexivity|].
  split. { intros f Hf _. rewrite G in Hf. destruct Hf as [<-|[<-|[]]]; eexists; (split; [vm_compute; reflexivity|reflexivity]). }
  eexists. eexists. rewrite G. split; [right; left; reflexivity|]. split; [apply str_in_iff; reflexivity|]. split; [vm_compute; reflexivity|]. simpl. lia.
Qed.

(** Two sequence files of a pulse resolved detector: one value per pulse, with
    pulse IDs; the first file has a train without data. *)
Definition ds1 (l : list Z) : dataset Z := mk_ds "u2" [1%Z] l.
Definition pfile1 : h5file Z := mk_h5 "p0.h5" (Some [20;21;22]%Z) (Some "1.0") None
  (Some ["INSTRUMENT/AGIPD:xtdf/image"])
  [("AGIPD:xtdf/image", mk_ix [0;2;2]%Z (IxCount [2;0;1]%Z))]
  [("INSTRUMENT/AGIPD:xtdf/image/cellId", ds1 [70;71;72]%Z);
   ("INSTRUMENT/AGIPD:xtdf/image/pulseId", ds1 [0;4;8]%Z)].
Definition pfile2 : h5file Z := mk_h5 "p1.h5" (Some [23]%Z) (Some "1.0") None
  (Some ["INSTRUMENT/AGIPD:xtdf/image"])
  [("AGIPD:xtdf/image", mk_ix [0]%Z (IxCount [2]%Z))]
  [("INSTRUMENT/AGIPD:xtdf/image/cellId", ds1 [73;74]%Z);
   ("INSTRUMENT/AGIPD:xtdf/image/pulseId", ds1 [0;4]%Z)].
(** A file without any row. *)
Definition pfile3 : h5file Z := mk_h5 "p2.h5" (Some [24]%Z) (Some "1.0") None
  (Some ["INSTRUMENT/AGIPD:xtdf/image"])
  [("AGIPD:xtdf/image", mk_ix [0]%Z (IxCount [0]%Z))]
  [("INSTRUMENT/AGIPD:xtdf/image/cellId", ds1 []);
   ("INSTRUMENT/AGIPD:xtdf/image/pulseId", ds1 [])].
Definition prun : dcoll Z := force no_coll (open_files [pfile2; pfile1]).
Definition prun3 : dcoll Z := force no_coll (open_files [pfile1; pfile3]).

Example C22_example_pulses : reachable prun /\ distinct_kinds prun /\ good_files prun /\
  good_index prun "AGIPD:xtdf" "image.cellId" /\ index_from_zero prun "AGIPD:xtdf" "image.cellId" /\
  good_data prun "AGIPD:xtdf" "image.cellId" /\ available prun "AGIPD:xtdf" "image.cellId" /\
  has_rows prun "AGIPD:xtdf" "image.cellId" /\ one_value_per_pulse prun "AGIPD:xtdf" "image.cellId" /\
  get_series (fun v => v) (fun v => v) prun "AGIPD:xtdf" "image.cellId" =
    Ok [(20, Some 0, 70); (20, Some 4, 71); (22, Some 8, 72); (23, Some 0, 73); (23, Some 4, 74)]%Z.
Proof.
  assert (F : dc_files prun = [force (mk_fa pfile2 [] [] []) (fa_open pfile2);
     force (mk_fa pfile1 [] [] []) (fa_open pfile1)]) by reflexivity.
  split; [apply (@open_files_reachable [pfile2; pfile1]); reflexivity|].
  split; [apply distinct_kindsb_ok; reflexivity|].
  split; [apply good_filesb_ok; reflexivity|]. split; [apply good_indexb_ok; reflexivity|].
  split. { intros f g a Hf Hs Hn Hg Ha. rewrite F in Hf. destruct Hf as [<-|[<-|[]]]; vm_compute in Hg; injection Hg as <-;
    vm_compute in Ha; injection Ha as <-; reflexivity. }
  split; [apply good_datab_ok; reflexivity|]. split; [apply check_field_iff; vm_compute; reflexivity|].
  split. { intros f Hf Hs. rewrite F in Hf. destruct Hf as [<-|[<-|[]]].
    - exists 23%Z, 2%Z. split; [now left|]. split; [|lia]. apply count_of_spec. vm_compute. reflexivity.
    - exists 20%Z, 2%Z. split; [now left|]. split; [|lia]. apply count_of_spec. vm_compute. reflexivity. }
  split.
  { split; [apply str_in_iff; reflexivity|]. intros f ds g Hf Hs Hd Hg. rewrite F in Hf.
    destruct Hf as [<-|[<-|[]]]; vm_compute in Hg; injection Hg as <-; vm_compute in Hd; injection Hd as <-;
      (split; [reflexivity|]); split.
    - exists 23%Z, 2%Z. split; [now left|]. split; [|lia]. apply count_of_spec. vm_compute. reflexivity.
    - exists (ds1 [0;4]%Z), 1%Z. split; [reflexivity|]. split; [reflexivity|].
      intros p a c Hp Ha Hc. destruct p as [|p]; [|simpl in Hp; lia]. vm_compute in Ha, Hc. injection Ha as <-; injection Hc as <-.
      simpl. lia.
    - exists 20%Z, 2%Z. split; [now left|]. split; [|lia]. apply count_of_spec. vm_compute. reflexivity.
    - exists (ds1 [0;4;8]%Z), 1%Z. split; [reflexivity|]. split; [reflexivity|].
      intros p a c Hp Ha Hc. destruct p as [|[|[|p]]]; [| | |simpl in Hp; lia]; vm_compute in Ha, Hc; injection Ha as <-; injection Hc as <-;
      simpl; lia. }
  vm_compute. reflexivity.
Qed.

Example C22_example_trains : good_index run "XGM" "beam.pos" /\ good_ctrl run "XGM" /\ good_data run "XGM" "beam.pos" /\
  get_series (fun v => v) (fun v => v) run "XGM" "beam.pos" =
    Ok [(10, None, 100); (11, None, 101); (12, None, 102); (13, None, 103); (14, None, 104)]%Z /\
  get_series (fun v => v) (fun v => v) run "DET:out" "header.len" =
    Ok [(10, None, 7); (12, None, 8); (13, None, 9); (14, None, 10)]%Z.
Proof.
  split; [apply good_indexb_ok; reflexivity|]. split; [apply good_ctrlb_ok; reflexivity|].
  split; [apply good_datab_ok; reflexivity|]. split; [vm_compute; reflexivity|vm_compute; reflexivity].
Qed.

Example C22_no_rows_example : reachable prun3 /\ In "AGIPD:xtdf" (dc_inst prun3) /\
  readable_index prun3 "AGIPD:xtdf" "image.cellId" /\
  (forall t c, file_count pfile3 false "AGIPD:xtdf" "image.cellId" t c -> c = 0%Z) /\
  get_series (fun v => v) (fun v => v) prun3 "AGIPD:xtdf" "image.cellId" = Err EException /\
  is_ok (get_array prun3 "AGIPD:xtdf" "image.cellId") = true.
Proof.
  split; [apply (@open_files_reachable [pfile1; pfile3]); reflexivity|].
  split; [apply str_in_iff; reflexivity|]. split; [apply readable_indexb_ok; reflexivity|].
  split. { intros t c H. apply count_of_spec in H. unfold count_of in H. simpl in H.
    destruct (match t with Z.pos q => _ | _ => _ end); [|discriminate]. vm_compute in H. congruence. }
  split; [vm_compute; reflexivity|vm_compute; reflexivity].
Qed.

(** Without the hypothesis that the index starts at row 0, get_series gives
    other values than get_array. *)
Definition shifted : h5file Z := mk_h5 "s0.h5" (Some [20]%Z) (Some "1.0") None
  (Some ["INSTRUMENT/CAM:daq/data"])
  [("CAM:daq/data", mk_ix [1]%Z (IxCount [1]%Z))]
  [("INSTRUMENT/CAM:daq/data/pix", dsZ [50;51]%Z)].
Definition srun : dcoll Z := force no_coll (open_files [shifted]).
Theorem C22_shifted_index_refuted : exists d : dcoll Z,
  reachable d /\ good_index d "CAM:daq" "data.pix" /\ good_data d "CAM:daq" "data.pix" /\
  get_array d "CAM:daq" "data.pix" = Ok (mk_la "f4" [] [20%Z] [51%Z]) /\
  get_series (fun v => v) (fun v => v) d "CAM:daq" "data.pix" = Ok [(20, None, 50)]%Z.
Proof.
  exists srun. split; [apply (@open_files_reachable [shifted]); reflexivity|].
  split; [apply good_indexb_ok; reflexivity|]. split; [apply good_datab_ok; reflexivity|].
  split; [vm_compute; reflexivity|vm_compute; reflexivity].
Qed.
Print Assumptions C22_shifted_index_refuted.

(** ** C23: get_dask_array *)
Theorem C23_dask_same_array : forall (V : Type) (itemsize : string -> Z) (d : dcoll V) s k a rows,
  reachable d -> distinct_kinds d -> good_index d s k ->
  get_array d s k = Ok a -> get_dask_array itemsize d s k = Ok rows -> rows = la_rows a.
Proof. intros V isz d s k a rows. exact (@dask_same_rows V isz d s k a rows). Qed.
Print Assumptions C23_dask_same_array.
(** For any index: the same rows, or fewer if get_array repeats a row of data cut short. *)
Theorem C23_dask_same_rows : forall (V : Type) (itemsize : string -> Z) (d : dcoll V) s k a rows,
  get_array d s k = Ok a -> get_dask_array itemsize d s k = Ok rows ->
  rows = la_rows a \/ (List.length rows < List.length (la_rows a))%nat.
Proof. intros V isz d s k a rows. exact (@dask_rows_or_fewer V isz d s k a rows). Qed.
Print Assumptions C23_dask_same_rows.

Theorem C23_dask_exists : forall (V : Type) (itemsize : string -> Z) (d : dcoll V) s k a,
  reachable d -> distinct_kinds d -> good_files d -> good_index d s k -> get_array d s k = Ok a ->
  (forall f, In f (dc_files d) -> In s (fa_sources f) -> exists t, In t (fa_tids f) /\ In t (dc_tids d)) ->
  (forall f t c, holds d f s t -> In t (dc_tids d) ->
     file_count (fa_file f) (str_in s (dc_ctrl d)) s k t c -> (0 < c)%Z) ->
  get_dask_array itemsize d s k = Ok (la_rows a).
Proof.
  intros V isz d s k a Hr Hk Hg Hi Ha Hs Hp.
  destruct (@dask_progress V isz d s k a Hr Hk Hg Hi Ha Hs Hp) as [rows Hrows].
  rewrite Hrows. f_equal. exact (@dask_same_rows V isz d s k a rows Hr Hk Hi Ha Hrows).
Qed.
Print Assumptions C23_dask_exists.

(** The search for the block length ends, with a length obtained by halving the
    number of rows; the block has at least one row if there are rows, it is the
    whole chunk if that is small enough, and otherwise it has one row or at most 2 GB. *)
Theorem C23_block_search : forall item itemsize n, (0 <= n)%Z ->
  exists b, dask_block (dask_fuel n) item itemsize n = Ok b /\
    (exists j, b = n / 2 ^ Z.of_nat j)%Z /\ (1 <= n -> 1 <= b)%Z /\
    (nbytes n item itemsize <= 2 ^ 31 -> b = n)%Z /\
    ((b <= 1)%Z \/ (nbytes b item itemsize <= 2 ^ 31)%Z).
Proof.
  intros item isz n Hn. destruct (@dask_block_spec (dask_fuel n) item isz n Hn (dask_fuel_enough Hn))
    as (b & H1 & H2 & H3 & H4 & H5 & H6).
  change dask_limit with (2 ^ 31)%Z in *. exists b. auto.
Qed.
Print Assumptions C23_block_search.

(** [nbytes] is the size of [n] rows as long as it fits in 63 bits. *)
Lemma i64_id : forall z, (- 2 ^ 63 <= z < 2 ^ 63)%Z -> i64 z = z.
Proof. intros z H. unfold i64. rewrite Z.mod_small by lia. lia. Qed.
Lemma i64_mul : forall a b, i64 (i64 a * b) = i64 (a * b).
Proof.
  intros a b. unfold i64. f_equal.
  replace (((a + 2 ^ 63) mod 2 ^ 64 - 2 ^ 63) * b + 2 ^ 63)%Z
    with ((a + 2 ^ 63) mod 2 ^ 64 * b + (2 ^ 63 - 2 ^ 63 * b))%Z by ring.
  rewrite Zplus_mod, Zmult_mod, Zmod_mod, <- Zmult_mod, <- Zplus_mod. f_equal. ring.
Qed.
Theorem C23_nbytes_exact : forall item itemsize n,
  (0 <= n * fold_right Z.mul 1 item * itemsize < 2 ^ 63)%Z ->
  nbytes n item itemsize = (n * fold_right Z.mul 1 item * itemsize)%Z.
Proof.
  intros item isz n H. unfold nbytes.
  assert (E : forall l x y, i64 (fold_left (fun p m => i64 (p * m)) l (i64 x) * y) = i64 (x * fold_right Z.mul 1 l * y)%Z).
  { induction l as [|m l IH]; intros x y; simpl.
    - rewrite i64_mul. f_equal. ring.
    - rewrite i64_mul. rewrite IH. f_equal. ring. }
  assert (E2 : forall l x y, i64 (fold_left (fun p m => i64 (p * m)) l x * y) = i64 (x * fold_right Z.mul 1 l * y)%Z).
  { intros [|m l] x y; simpl; [f_equal; ring|]. rewrite E. f_equal. ring. }
  rewrite E2. apply i64_id. lia.
Qed.
Print Assumptions C23_nbytes_exact.

Example C23_example : get_dask_array (fun _ => 4%Z) prun "AGIPD:xtdf" "image.cellId" = Ok [70;71;72;73;74]%Z /\
  is_ok (get_array prun "AGIPD:xtdf" "image.cellId") = true /\
  (* 3520 images of 512 x 128 pixels of 16 bytes: 1760 at a time *)
  dask_block (dask_fuel 3520) [512;128]%Z 16 3520 = Ok 1760%Z.
Proof. split; [vm_compute; reflexivity|]. split; [vm_compute; reflexivity|vm_compute; reflexivity]. Qed.

(** A selected stretch of trains without rows: dask cannot make blocks of length 0. *)
Theorem C23_gap_refuted : exists d : dcoll Z, reachable d /\ distinct_kinds d /\ good_files d /\
  good_index d "AGIPD:xtdf" "image.cellId" /\ good_data d "AGIPD:xtdf" "image.cellId" /\
  get_array d "AGIPD:xtdf" "image.cellId" = Ok (mk_la "u2" [1%Z] [] []) /\
  get_dask_array (fun _ => 2%Z) d "AGIPD:xtdf" "image.cellId" = Err ERuntimeError.
Proof.
  assert (E : exists d, select_trains prun (ByIdList [21%Z]) = Ok d) by (vm_compute; eauto).
  destruct E as [d E]. exists d. split.
  { eapply reach_trains; [|exact E]. apply (@open_files_reachable [pfile2; pfile1]); reflexivity. }
  vm_compute in E. injection E as <-.
  split; [apply distinct_kindsb_ok; reflexivity|]. split; [apply good_filesb_ok; reflexivity|].
  split; [apply good_indexb_ok; reflexivity|]. split; [apply good_datab_ok; reflexivity|].
  split; [vm_compute; reflexivity|vm_compute; reflexivity].
Qed.
Print Assumptions C23_gap_refuted.

(** get_dask_array does not check the field against the selection. *)
Theorem C23_ignores_selection_refuted : exists d : dcoll Z, reachable d /\
  select run (SelGlobs [("DET:out", "header.len")]) = Ok d /\
  get_array d "DET:out" "image.data" = Err EPropertyNameError /\
  get_dask_array (fun _ => 4%Z) d "DET:out" "image.data" = Ok [1;2;3;4;5;6;7;8]%Z.
Proof.
  assert (E : exists d, select run (SelGlobs [("DET:out", "header.len")]) = Ok d) by (vm_compute; eauto).
  destruct E as [d E]. exists d. split.
  { eapply reach_select; [exact run_reachable|exact E]. }
  split; [exact E|].
  vm_compute in E. injection E as <-. split; [vm_compute; reflexivity|vm_compute; reflexivity].
Qed.
Print Assumptions C23_ignores_selection_refuted.
