(** C01-C08: reading data. *)
From Verif Require Import Base PyStr M_Files M_Machinery M_Reader M_Glob M_Select S_Reader S_Coll S_Avail
  L_Machinery L_Select L_Array2 L_Trains L_Field L_Check Ex_Files.
Local Open Scope string_scope.
Local Open Scope list_scope.

(** ** C01 *)
Theorem C01_get_array_rows : forall (V : Type) (d : dcoll V) s k a,
  reachable d -> distinct_kinds d -> good_files d -> good_index d s k ->
  get_array d s k = Ok a ->
  List.length (la_labels a) = List.length (la_rows a) /\
  (forall f t, holds d f s t -> In t (dc_tids d) ->
     file_rows (fa_file f) (str_in s (dc_ctrl d)) s k t (rows_labelled t (la_labels a) (la_rows a))) /\
  (forall t, ~ (In t (dc_tids d) /\ exists f, holds d f s t) ->
     rows_labelled t (la_labels a) (la_rows a) = []).
Proof.
  intros V d s k a Hr Hk Hg Hi Ha. split; [exact (get_array_lengths Ha)|].
  destruct (@get_array_correct V d s k a Hr Hk Hg Hi Ha) as [H1 H2]. split.
  - intros f t (F1 & F2 & F3) Ht. exact (H1 f t F1 F2 F3 Ht).
  - exact H2.
Qed.
Print Assumptions C01_get_array_rows.

Theorem C01_get_array_succeeds : forall (V : Type) (d : dcoll V) s k,
  reachable d -> distinct_kinds d -> good_files d -> good_index d s k -> good_data d s k ->
  available d s k ->
  (forall f, In f (dc_files d) -> In s (fa_sources f) -> fa_tids f <> []) ->
  exists a, get_array d s k = Ok a.
Proof. intros V d s k R K G I D A. apply check_field_iff in A. exact (@get_array_progress V d s k R K G I D A). Qed.
Print Assumptions C01_get_array_succeeds.

Example C01_example :
  reachable run /\ distinct_kinds run /\ good_files run /\
  good_index run "DET:out" "image.data" /\ good_data run "DET:out" "image.data" /\
  available run "DET:out" "image.data" /\
  (forall f, In f (dc_files run) -> fa_tids f <> []) /\
  get_array run "DET:out" "image.data" =
    Ok (mk_la "f4" [] [10;10;12;12;12;13;14;14]%Z [1;2;3;4;5;6;7;8]%Z).
Proof.
  split; [exact run_reachable|]. split; [apply distinct_kindsb_ok; reflexivity|].
  split; [apply good_filesb_ok; reflexivity|]. split; [apply good_indexb_ok; reflexivity|].
  split; [apply good_datab_ok; reflexivity|]. split; [apply check_field_iff; reflexivity|]. split; [|reflexivity].
  intros f Hf. vm_compute in Hf. repeat destruct Hf as [<-|Hf]; try discriminate. destruct Hf.
Qed.

(** The row of train 2 is at 3, after a gap: get_array gives row 1 for it. *)
Definition gap_file : h5file Z := mk_h5 "gap.h5" (Some [1;2]%Z) (Some "1.0") None
  (Some ["INSTRUMENT/CAM:daq/data"])
  [("CAM:daq/data", mk_ix [0;3]%Z (IxCount [1;1]%Z))]
  [("INSTRUMENT/CAM:daq/data/pix", dsZ [50;51;52;53]%Z)].
Definition gap_fa : faccess Z := mk_fa gap_file [1;2]%Z [] ["CAM:daq"].
Definition gap_run : dcoll Z := force no_coll (open_files [gap_file]).
Theorem C01_index_gap_refuted : exists (d : dcoll Z) s k a f t,
  reachable d /\ good_collection d /\ get_array d s k = Ok a /\ holds d f s t /\ In t (dc_tids d) /\
  ~ file_rows (fa_file f) (str_in s (dc_ctrl d)) s k t (rows_labelled t (la_labels a) (la_rows a)).
Proof.
  exists gap_run, "CAM:daq", "data.pix", (mk_la "f4" [] [1;2]%Z [50;51]%Z), gap_fa, 2%Z.
  split; [apply (@open_files_reachable [gap_file]); reflexivity|].
  split; [apply good_collectionb_ok; reflexivity|]. split; [reflexivity|].
  split; [vm_compute; auto|]. split; [vm_compute; auto|]. intros H.
  assert (R : file_rows (fa_file gap_fa) false "CAM:daq" "data.pix" 2%Z [53%Z]).
  { exists [1;2]%Z, 1%nat, (mk_ix [0;3]%Z (IxCount [1;1]%Z)), 3%Z, 1%Z, (dsZ [50;51;52;53]%Z).
    repeat split. intros q Hq. destruct q as [|q]; [simpl; congruence|lia]. }
  pose proof (file_rows_fun H R) as X. vm_compute in X. discriminate.
Qed.
Print Assumptions C01_index_gap_refuted.

(** A dataset cut short: its single row is given to all three trains. *)
Definition cut_file : h5file Z := mk_h5 "cut.h5" (Some [1;2;3]%Z) (Some "1.0") None
  (Some ["INSTRUMENT/CAM:daq/data"])
  [("CAM:daq/data", mk_ix [0;1;2]%Z (IxCount [1;1;1]%Z))]
  [("INSTRUMENT/CAM:daq/data/pix", dsZ [50]%Z)].
Definition cut_fa : faccess Z := mk_fa cut_file [1;2;3]%Z [] ["CAM:daq"].
Definition cut_run : dcoll Z := force no_coll (open_files [cut_file]).
Theorem C01_cut_data_refuted : exists (d : dcoll Z) s k a f t,
  reachable d /\ distinct_kinds d /\ good_files d /\ readable_index d s k /\
  get_array d s k = Ok a /\ holds d f s t /\ In t (dc_tids d) /\
  file_rows (fa_file f) (str_in s (dc_ctrl d)) s k t [] /\
  rows_labelled t (la_labels a) (la_rows a) = [50]%Z.
Proof.
  exists cut_run, "CAM:daq", "data.pix", (mk_la "f4" [] [1;2;3]%Z [50;50;50]%Z), cut_fa, 2%Z.
  split; [apply (@open_files_reachable [cut_file]); reflexivity|].
  split; [apply distinct_kindsb_ok; reflexivity|]. split; [apply good_filesb_ok; reflexivity|].
  split; [apply readable_indexb_ok; reflexivity|]. split; [reflexivity|].
  split; [vm_compute; auto|]. split; [vm_compute; auto|]. split; [|reflexivity].
  exists [1;2;3]%Z, 1%nat, (mk_ix [0;1;2]%Z (IxCount [1;1;1]%Z)), 1%Z, 1%Z, (dsZ [50]%Z).
  repeat split. intros q Hq. destruct q as [|q]; [simpl; congruence|lia].
Qed.
Print Assumptions C01_cut_data_refuted.

(** A file of the source without any train makes get_array fail. *)
Theorem C01_empty_file_refuted : exists (d : dcoll Z) s k,
  reachable d /\ good_collection d /\ good_index d s k /\ available d s k /\
  get_array d s k = Err EIndexError.
Proof.
  pose (e := mk_h5 "empty.h5" (Some [0;0]%Z) (Some "1.0") None (Some ["INSTRUMENT/CAM:daq/data"])
    [("CAM:daq/data", mk_ix [0;0]%Z (IxCount [0;0]%Z))] [("INSTRUMENT/CAM:daq/data/pix", dsZ [])]).
  exists (force no_coll (open_files [file3; e])), "CAM:daq", "data.pix".
  split; [apply (@open_files_reachable [file3; e]); reflexivity|].
  split; [apply good_collectionb_ok; reflexivity|]. split; [apply good_indexb_ok; reflexivity|].
  split; [apply check_field_iff|]; reflexivity.
Qed.
Print Assumptions C01_empty_file_refuted.

(** ** C02 *)
Theorem C02_maximal_regions : forall mask, mask <> [] ->
  exists rs, contiguous_regions mask = Ok rs /\ maximal_regions mask rs /\
             forall rs', maximal_regions mask rs' -> rs' = rs.
Proof.
  intros mask H. destruct (contiguous_regions_correct H) as (rs & H1 & H2).
  exists rs. split; [assumption|]. split; [assumption|]. intros rs' H'. now apply maximal_regions_unique with (mask := mask).
Qed.
Print Assumptions C02_maximal_regions.
Theorem C02_no_trains_fails : contiguous_regions [] = Err EIndexError.
Proof. exact contiguous_regions_empty. Qed.
Print Assumptions C02_no_trains_fails.
Example C02_example : contiguous_regions [true; true; false; true; false; false; true] = Ok [(0,2); (3,4); (6,7)].
Proof. reflexivity. Qed.

(** ** C03 *)
Theorem C03_labels_in_order : forall (V : Type) (d : dcoll V) s k a,
  reachable d -> distinct_kinds d -> good_files d -> good_index d s k -> sequence_files d s ->
  get_array d s k = Ok a -> StronglySorted Z.le (la_labels a).
Proof. intros V d s k a. exact (@get_array_sequence_sorted V d s k a). Qed.
Print Assumptions C03_labels_in_order.

Definition run_rev : dcoll Z := force no_coll (open_files [file2; file3; file1]).
Example C03_example : reachable run_rev /\ distinct_kinds run_rev /\ good_files run_rev /\
  good_index run_rev "DET:out" "image.data" /\ sequence_files run_rev "DET:out" /\
  get_array run_rev "DET:out" "image.data" =
    Ok (mk_la "f4" [] [10;10;12;12;12;13;14;14]%Z [1;2;3;4;5;6;7;8]%Z).
Proof.
  split; [apply (@open_files_reachable [file2; file3; file1]); reflexivity|].
  split; [apply distinct_kindsb_ok; reflexivity|].
  split; [apply good_filesb_ok; reflexivity|]. split; [apply good_indexb_ok; reflexivity|].
  split; [|reflexivity].
  assert (F : dc_files run_rev = [force (mk_fa file2 [] [] []) (fa_open file2);
     force (mk_fa file3 [] [] []) (fa_open file3); force (mk_fa file1 [] [] []) (fa_open file1)]) by reflexivity.
  split.
  - intros f Hf Hs. rewrite F in Hf. simpl in Hf. destruct Hf as [<-|[<-|[<-|[]]]]; simpl;
      repeat (constructor; try lia).
  - rewrite F. constructor; [constructor; [|constructor; [|constructor]]|constructor;
      [constructor; [|constructor]|constructor; [constructor|constructor]]].
    + intros _ Hs. exfalso. vm_compute in Hs. destruct Hs as [Hs|[]]; discriminate.
    + intros _ _. right. intros t1 t2 H1 H2. simpl in H1, H2. intuition lia.
    + intros Hs. exfalso. vm_compute in Hs. destruct Hs as [Hs|[]]; discriminate.
Qed.

(** Interleaved files: labels 1,3,2,4. *)
Definition inter1 : h5file Z := mk_h5 "a.h5" (Some [1;3]%Z) (Some "1.0") None (Some ["CONTROL/XGM"])
  [("XGM", mk_ix [0;1]%Z (IxCount [1;1]%Z))] [("CONTROL/XGM/v", dsZ [10;30]%Z)].
Definition inter2 : h5file Z := mk_h5 "b.h5" (Some [2;4]%Z) (Some "1.0") None (Some ["CONTROL/XGM"])
  [("XGM", mk_ix [0;1]%Z (IxCount [1;1]%Z))] [("CONTROL/XGM/v", dsZ [20;40]%Z)].
Theorem C03_interleaved_refuted : exists (d : dcoll Z) s k a,
  reachable d /\ good_collection d /\ good_index d s k /\
  (forall f, In f (dc_files d) -> StronglySorted Z.lt (fa_tids f)) /\
  get_array d s k = Ok a /\ ~ StronglySorted Z.le (la_labels a).
Proof.
  exists (force no_coll (open_files [inter1; inter2])), "XGM", "v", (mk_la "f4" [] [1;3;2;4]%Z [10;30;20;40]%Z).
  split; [apply (@open_files_reachable [inter1; inter2]); reflexivity|].
  split; [apply good_collectionb_ok; reflexivity|]. split; [apply good_indexb_ok; reflexivity|].
  split; [|split; [reflexivity|]].
  - intros f Hf. vm_compute in Hf. destruct Hf as [<-|[<-|[]]]; simpl; repeat (constructor; try lia).
  - intros H. simpl in H. inversion H as [|? ? H1 _]. inversion H1 as [|? ? _ K]. inversion K. lia.
Qed.
Print Assumptions C03_interleaved_refuted.

(** ** C04 *)
Theorem C04_train_from_id : forall (V : Type) (d : dcoll V) t,
  reachable d -> good_collection d ->
  (In t (dc_tids d) -> exists r, train_from_id d t = Ok (t, r) /\ train_view value_of d t r) /\
  (~ In t (dc_tids d) -> train_from_id d t = Err ETrainIDError).
Proof.
  intros V d t Hr Hg. split; [|apply train_from_id_missing].
  intros Ht. destruct (train_from_id_correct Hr Hg Ht) as (r & H1 & H2 & H3).
  exists r. split; [assumption|]. split; assumption.
Qed.
Print Assumptions C04_train_from_id.
Example C04_example : reachable run /\ good_collection run /\ In 12%Z (dc_tids run) /\
  (exists r, train_from_id run 12 = Ok (12%Z, r) /\
    item r "XGM" "beam.pos" = Some (One 102%Z) /\ item r "DET:out" "image.data" = Some (Many [3;4;5]%Z) /\
    item r "DET:out" "header.len" = Some (One 8%Z) /\ item r "CAM:daq" "data.pix" = None) /\
  ~ In 15%Z (dc_tids run).
Proof.
  split; [exact run_reachable|]. split; [exact run_good|]. split; [vm_compute; auto|].
  split; [eexists; split; [reflexivity|]; repeat split|]. vm_compute. intuition discriminate.
Qed.

(** ** C05 *)
Theorem C05_trains_all : forall (V : Type) (d : dcoll V), reachable d -> good_collection d ->
  Forall2 (fun o t => exists r, o = Ok (t, r) /\ train_view value_it d t r) (trains d false) (dc_tids d).
Proof. exact @trains_correct. Qed.
Print Assumptions C05_trains_all.
Theorem C05_trains_agree : forall (V : Type) (d : dcoll V), reachable d -> good_collection d ->
  Forall2 (fun o t => exists r r',
      o = Ok (t, r) /\ train_from_id d t = Ok (t, r') /\
      (forall s, In s (dict_keys r) <-> In s (dict_keys r')) /\
      (forall s k, item r s k = item r' s k \/ (item r s k = Some (Many []) /\ item r' s k = None)))
    (trains d false) (dc_tids d).
Proof. exact @trains_agree. Qed.
Print Assumptions C05_trains_agree.
Theorem C05_no_rows_refuted : exists (d : dcoll Z) t r r' s k,
  reachable d /\ good_collection d /\ In (Ok (t, r)) (trains d false) /\ train_from_id d t = Ok (t, r') /\
  item r s k <> item r' s k.
Proof.
  destruct (nth_error (trains run false) 1) as [[[t r]|]|] eqn:E; try (exfalso; revert E; vm_compute; discriminate).
  destruct (train_from_id run 11) as [[t' r']|] eqn:E'; [|exfalso; revert E'; vm_compute; discriminate].
  exists run, t, r, r', "DET:out", "image.data".
  split; [exact run_reachable|]. split; [exact run_good|]. split; [eapply nth_error_In; exact E|].
  vm_compute in E, E'. injection E as <- <-. injection E' as <- <-. split; [reflexivity|]. vm_compute. discriminate.
Qed.
Print Assumptions C05_no_rows_refuted.

(** ** C06 *)
Theorem C06_cache_invisible : forall (V : Type) (d : dcoll V) history t,
  reachable d -> good_files d ->
  fst (assemble_data d t (cache_after d history)) = fst (assemble_data d t []).
Proof. exact @cache_invisible. Qed.
Print Assumptions C06_cache_invisible.
(** The cache is really used: it is not empty after two trains, and holds the
    file of the wrong sequence for train 10. *)
Example C06_example : reachable run /\ good_files run /\
  (exists f ds, it_lookup "DET:out" "image.data" (cache_after run [12; 13]%Z) = Some (f, ds) /\ ~ In 10%Z (fa_tids f)).
Proof.
  split; [exact run_reachable|]. split; [apply good_filesb_ok; reflexivity|].
  do 2 eexists. split; [reflexivity|]. vm_compute. intuition discriminate.
Qed.

(** ** C07 *)
Theorem C07_require_all : forall (V : Type) (d : dcoll V), reachable d -> good_collection d ->
  exists kept, yields d (trains d true) kept /\
    exists keep : Z -> bool, kept = filter keep (dc_tids d) /\ forall t, keep t = true <-> complete d t.
Proof. exact @trains_require_all. Qed.
Print Assumptions C07_require_all.
Example C07_example : reachable run /\ good_collection run /\
  map (fun o => match o with Ok (t, _) => t | Err _ => 0%Z end) (trains run true) = [13%Z].
Proof. split; [exact run_reachable|]. split; [exact run_good|reflexivity]. Qed.

(** ** C08 *)
Theorem C08_train_from_index : forall (V : Type) (d : dcoll V) i,
  let n := Z.of_nat (List.length (dc_tids d)) in
  (forall j t, (0 <= j < n)%Z -> (i = j \/ i = j - n)%Z -> nth_error (dc_tids d) (Z.to_nat j) = Some t ->
     train_from_index d i = train_from_id d t) /\
  (~ (- n <= i < n)%Z -> train_from_index d i = Err EIndexError).
Proof. exact @train_from_index_spec. Qed.
Print Assumptions C08_train_from_index.
Example C08_example : exists r, train_from_index run (-1) = Ok (14%Z, r) /\ train_from_index run 4 = Ok (14%Z, r).
Proof. eexists; split; reflexivity. Qed.
