(** C73: the arguments devices and train_range. *)

From Verif Require Import Base PyStr M_Files M_Machinery M_Reader M_Glob M_Select S_Reader S_Coll S_Glob S_Select S_Avail S_Hist
  L_Base L_Reader L_Select L_Trains L_Sel2 L_Hist L_Union L_Check Ex_Files M_Args S_Args L_Args P_Select.
Local Open Scope string_scope.
Local Open Scope list_scope.

(** ** C73 *)

(** train_from_id(t, devices=L) is train_from_id(t) without the sources and keys which no pair of patterns matches. *)
Theorem C73_train_from_id : forall (V : Type) (d : dcoll V) devices t,
  reachable d -> good_collection d -> keeps_keys d devices ->
  usable d devices -> In t (dc_tids d) ->
  exists whole part, train_from_id d t = Ok (t, whole) /\
    train_from_id_args d t (option_map SelGlobs devices) = Ok (t, part) /\
    restricted eq d devices whole part /\ (forall s, In s (dict_keys part) <-> asked_source d devices s).
Proof. intros V d devices t R G K U Ht. exact (train_args_spec R K G U Ht). Qed.
Print Assumptions C73_train_from_id.

(** The condition on the keys holds for what open_run or H5File give, and for patterns
    none of which is just "*". *)
Theorem C73_opened_run : forall (V : Type) (files : list (faccess V)) d devices,
  Forall (fun f => fa_open (fa_file f) = Ok f) files -> mk_collection files None None = Ok d ->
  reachable d /\ keeps_keys d devices.
Proof.
  intros V files d devices HF Hd. split; [eapply reach_open; eassumption|]. destruct devices as [L|]; [|exact I].
  intros p s k _ _ _ Hs. pose proof (open_available s k Hd) as X. tauto.
Qed.
Print Assumptions C73_opened_run.
Theorem C73_no_star : forall (V : Type) (d : dcoll V) L, (forall p, In p L -> snd p <> "*") -> keeps_keys d (Some L).
Proof. intros V d L H p s k Hp Es. destruct (H p Hp Es). Qed.
Print Assumptions C73_no_star.

(** A train which is not there is reported before the selection is looked at. *)
Theorem C73_missing_train : forall (V : Type) (d : dcoll V) t devices, ~ In t (dc_tids d) ->
  train_from_id_args d t devices = Err ETrainIDError.
Proof.
  intros V d t devices H. unfold train_from_id_args. destruct (z_in t (dc_tids d)) eqn:E; [|reflexivity]. apply z_in_iff in E. contradiction.
Qed.
Print Assumptions C73_missing_train.

(** train_from_index(i, devices) is train_from_id(train_ids[i], devices). *)
Theorem C73_train_from_index : forall (V : Type) (d : dcoll V) devices i,
  let n := Z.of_nat (List.length (dc_tids d)) in
  (forall j t, (0 <= j < n)%Z -> (i = j \/ i = j - n)%Z -> nth_error (dc_tids d) (Z.to_nat j) = Some t ->
     train_from_index_args d i devices = train_from_id_args d t devices) /\
  (~ (- n <= i < n)%Z -> train_from_index_args d i devices = Err EIndexError).
Proof.
  intros V d devices i n. unfold train_from_index_args, py_index. fold n. split.
  - intros j t Hj Hi Hn. replace (if (i <? 0)%Z then (i + n)%Z else i) with j by (destruct (Z.ltb_spec i 0); lia).
    replace ((0 <=? j) && (j <? n))%Z with true by lia. now rewrite Hn.
  - intros H. destruct (Z.ltb_spec i 0); [replace ((0 <=? i + n) && (i + n <? n))%Z with false by lia|replace ((0 <=? i) && (i <? n))%Z with false by lia]; reflexivity.
Qed.
Print Assumptions C73_train_from_index.

(** trains(devices=L, train_range=tr) iterates over the trains which select_trains(tr) gives, in this order, and
    yields for each the data of train_from_id, without the sources and keys which no pair of patterns matches (where
    a train has no rows trains() gives an empty array); a train range which select_trains refuses raises its
    exception. *)
Theorem C73_trains : forall (V : Type) (d : dcoll V) devices tr,
  reachable d -> good_collection d -> keeps_keys d devices ->
  (tr = None \/ uniform_keys (dc_files d)) -> usable d devices ->
  match (match tr with None => Ok d | Some r => select_trains d r end) with
  | Ok dt => exists items, trains_args d (option_map SelGlobs devices) tr false = Ok items /\
      Forall2 (fun o t => exists whole part, train_from_id d t = Ok (t, whole) /\ o = Ok (t, part) /\
                 restricted (@same_or_empty V) d devices whole part) items (dc_tids dt)
  | Err e => trains_args d (option_map SelGlobs devices) tr false = Err e
  end.
Proof. intros V d devices tr R G K U HU. exact (trains_args_spec R K G U HU). Qed.
Print Assumptions C73_trains.

(** Patterns one of which finds nothing are a ValueError, whatever the range. *)
Theorem C73_no_match : forall (V : Type) (d : dcoll V) L tr ra p, reachable d -> Forall valid_pair L -> In p L ->
  (forall s, ~ hits_source d p s) -> trains_args d (Some (SelGlobs L)) tr ra = Err EValueError.
Proof.
  intros V d L tr ra p R HV Hp H. unfold trains_args. cbn [select_opt]. destruct (@C12_select_globs V d L R HV) as [X _]. rewrite X; [reflexivity|eauto].
Qed.
Print Assumptions C73_no_match.

(** The run of Ex_Files: DET image data for the last three trains. *)
Definition run_files : list (faccess Z) := force [] (mapM (@fa_open Z) [file1; file2; file3]).
Definition only_image : list (string * string) := [("DET*", "image.*")].
Example C73_example :
  Forall (fun f => fa_open (fa_file f) = Ok f) run_files /\ mk_collection run_files None None = Ok run /\ good_collection run /\
  uniform_keys (dc_files run) /\ usable run (Some only_image) /\
  (exists items, trains_args run (Some (SelGlobs only_image)) (Some (ByIndex (mk_slice (Some (-3)%Z) None None))) false = Ok items /\
     map (fun o => match o with Ok (t, r) => (t, map fst r, item r "DET:out" "image.data") | Err _ => (0%Z, [], None) end) items =
     [(12%Z, ["DET:out"], Some (Many [3;4;5]%Z)); (13%Z, ["DET:out"], Some (One 6%Z)); (14%Z, ["DET:out"], Some (Many [7;8]%Z))]).
Proof.
  split; [repeat constructor|]. split; [reflexivity|]. split; [exact run_good|]. split; [apply uniformb_ok; vm_compute; reflexivity|].
  split; [split; [constructor; [split; apply valid_patternb_ok; reflexivity|constructor]|]|].
  - intros p [<-|[]]. exists "DET:out". split; [vm_compute; tauto|]. split.
    + destruct (glob_compile "DET*") as [ts|] eqn:E; [|discriminate]. apply (C13_glob_meaning _ _ "DET:out" E). vm_compute in E. injection E as <-. reflexivity.
    + right. exists "image.data". split; [split; [vm_compute; tauto|eexists; split; [reflexivity|vm_compute; tauto]]|].
      split.
      * destruct (glob_compile "DET*") as [ts|] eqn:E; [|discriminate]. apply (C13_glob_meaning _ _ "DET:out" E). vm_compute in E. injection E as <-. reflexivity.
      * left. destruct (glob_compile "image.*") as [ts|] eqn:E; [|discriminate]. apply (C13_glob_meaning _ _ "image.data" E). vm_compute in E. injection E as <-. reflexivity.
  - eexists. split; [reflexivity|]. vm_compute. reflexivity.
Qed.

(** Without the condition on the keys this fails: devices=[("*", "*")] reads keys which an earlier selection left out. *)
Definition det_image : dcoll Z := force run (select run (SelGlobs [("DET*", "image.*")])).
Lemma det_image_reachable : reachable det_image.
Proof. eapply reach_select; [exact run_reachable|]. instantiate (1 := SelGlobs [("DET*", "image.*")]). reflexivity. Qed.
Theorem C73_star_widens_refuted : exists (d : dcoll Z) t part s k, reachable d /\ In t (dc_tids d) /\
  train_from_id_args d t (Some (SelGlobs [("*", "*")])) = Ok (t, part) /\ item part s k <> None /\ ~ available d s k.
Proof.
  exists det_image, 12%Z. eexists. exists "DET:out", "header.len". split; [exact det_image_reachable|]. split; [vm_compute; tauto|].
  split; [vm_compute; reflexivity|]. split; [vm_compute; discriminate|]. intros [_ (ks & H & K)]. vm_compute in H. injection H as <-.
  destruct K as [K|[]]. discriminate.
Qed.
Print Assumptions C73_star_widens_refuted.

(** The theorems apply to a selection with further patterns. *)
Example C73_selected_example :
  reachable det_image /\ keeps_keys det_image (Some only_image) /\ usable det_image (Some only_image) /\
  (exists part, train_from_id_args det_image 12%Z (Some (SelGlobs only_image)) = Ok (12%Z, part) /\ item part "DET:out" "image.data" = Some (Many [3;4;5]%Z) /\
     item part "DET:out" "header.len" = None).
Proof.
  split; [exact det_image_reachable|]. split; [apply C73_no_star; intros p [<-|[]]; discriminate|]. split.
  - split; [constructor; [split; apply valid_patternb_ok; reflexivity|constructor]|].
    intros p [<-|[]]. exists "DET:out". split; [vm_compute; tauto|].
    assert (G1 : glob "DET*" "DET:out").
    { destruct (glob_compile "DET*") as [ts|] eqn:E; [|discriminate]. apply (C13_glob_meaning _ _ "DET:out" E). vm_compute in E. injection E as <-. reflexivity. }
    split; [exact G1|]. right. exists "image.data". split; [split; [vm_compute; tauto|eexists; split; [reflexivity|vm_compute; tauto]]|].
    split; [exact G1|]. left. destruct (glob_compile "image.*") as [ts|] eqn:E; [|discriminate]. apply (C13_glob_meaning _ _ "image.data" E). vm_compute in E. injection E as <-. reflexivity.
  - eexists. split; [vm_compute; reflexivity|]. split; vm_compute; reflexivity.
Qed.
