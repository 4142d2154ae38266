(** C24-C27: written files and virtual datasets. *)
From Verif Require Import Base PyStr M_Files M_Machinery M_Reader M_Glob M_Select M_Writer S_Reader S_Coll S_Avail S_Open S_Writer
  L_Base L_Select L_Array2 L_Trains L_Check L_Check2 L_Writer L_Writer2 L_Writer3 L_Writer4 L_Writer5 L_Writer6 Ex_Files P_Reader.
Local Open Scope string_scope.
Local Open Scope list_scope.

(** ** C24 *)
Theorem C24_write_then_open : forall (V : Type) (d : dcoll V) name f, reachable d -> orderly d -> write name d = Ok f ->
  exists d', open_one f = Ok d' /\ dc_tids d' = dc_tids d /\
    (forall s k, available d' s k <-> available d s k) /\
    (forall s k, available d s k -> is_control d' s = is_control d s /\ get_array d' s k = get_array d s k) /\
    (forall t r, In t (dc_tids d) -> train_from_id d t = Ok (t, r) ->
       exists r', train_from_id d' t = Ok (t, r') /\ forall s k, item r' s k = item r s k).
Proof.
  intros V d name f Hr Ho Hf. destruct (write_content Hf) as (done & ws & _ & _ & _ & W).
  destruct (@round_trip V (@read_real V) d name f Hr Ho) as (d' & Ed & _ & Ht & AV & AR & TR); [|exact Hf|].
  { intros c s k o _ H. destruct (read_real_ok H) as (a & -> & G & _). exists a. auto. }
  assert (Hk : distinct_kinds d) by apply Ho.
  assert (Nn : forall s k, available d s k -> exists a, read_real d (is_control d s) s k = Ok (Some a)).
  { intros s k A. destruct (W (is_control d s) s k) as [E|(a & E & _)]; [apply selected_available; auto| |eauto].
    destruct (read_real_ok E) as (a & X & _). discriminate. }
  exists d'. split; [exact Ed|]. split; [exact Ht|]. split; [|split].
  - intros s k. rewrite AV. split; [tauto|]. intros A. split; [exact A|]. destruct (Nn s k A) as [a E]. congruence.
  - intros s k A. apply AR. apply AV. split; [exact A|]. destruct (Nn s k A) as [a E]. congruence.
  - apply TR. intros s k a A Ec G. destruct (Nn s k A) as [a' E]. destruct (read_real_ok E) as (a2 & X & G2 & L). injection X as <-.
    assert (a' = a) by congruence. subst. auto.
Qed.
Print Assumptions C24_write_then_open.
Example C24_example : reachable run /\ orderly run /\
  (exists f d', write "new.h5" run = Ok f /\ open_one f = Ok d' /\
     get_array d' "DET:out" "image.data" = Ok (mk_la "f4" [] [10;10;12;12;12;13;14;14]%Z [1;2;3;4;5;6;7;8]%Z)).
Proof.
  split; [exact run_reachable|]. split; [apply orderlyb_ok; reflexivity|].
  eexists. eexists. split; [vm_compute; reflexivity|]. split; [vm_compute; reflexivity|]. vm_compute. reflexivity.
Qed.

(** write() succeeds exactly when every control source has a value for every
    selected train; otherwise its only failure is AssertionError. *)
Theorem C24_write_succeeds : forall (V : Type) (d : dcoll V) name, reachable d -> orderly d -> separate_keys d ->
  (forall s k, available d s k -> exists a, get_array d s k = Ok a) ->
  (control_complete d <-> exists f, write name d = Ok f) /\
  (~ control_complete d -> write name d = Err EAssertionError).
Proof.
  intros V d name Hr (Hg & Hgi & Hp & Hn & Ho & _ & _) Hs Ha.
  destruct (write_outcome name Hr Hg Hp Hn Hs (StronglySorted_NoDup_lt (proj1 Ho)) Hgi Ha) as (W1 & W2 & W3). split; [split|]; assumption.
Qed.
Print Assumptions C24_write_succeeds.
Definition late1 : h5file Z := mk_h5 "xgm.h5" (Some [2;3]%Z) (Some "1.0") None (Some ["CONTROL/XGM"])
  [("XGM", mk_ix [0;1]%Z (IxCount [1;1]%Z))] [("CONTROL/XGM/v", dsZ [20;30]%Z)].
Definition late2 : h5file Z := mk_h5 "cam.h5" (Some [1;2;3]%Z) (Some "1.0") None (Some ["INSTRUMENT/CAM:daq/data"])
  [("CAM:daq/data", mk_ix [0;1;1]%Z (IxCount [1;0;1]%Z))] [("INSTRUMENT/CAM:daq/data/pix", dsZ [50;51]%Z)].
Definition late_run : dcoll Z := force no_coll (open_files [late1; late2]).
Example C24_succeeds_example : reachable run /\ orderly run /\ separate_keys run /\ control_complete run /\
  (forall s k, available run s k -> exists a, get_array run s k = Ok a) /\
  reachable late_run /\ orderly late_run /\ separate_keys late_run /\ ~ control_complete late_run /\
  (forall s k, available late_run s k -> exists a, get_array late_run s k = Ok a).
Proof.
  split; [exact run_reachable|]. split; [apply orderlyb_ok; reflexivity|]. split; [apply separate_keysb_ok; reflexivity|].
  split; [apply control_completeb_ok; reflexivity|]. split; [apply readableb_ok; reflexivity|].
  split; [apply (@open_files_reachable [late1; late2]); reflexivity|]. split; [apply orderlyb_ok; reflexivity|]. split; [apply separate_keysb_ok; reflexivity|].
  split; [rewrite <- control_completeb_ok; vm_compute; discriminate|apply readableb_ok; reflexivity].
Qed.

(** The comment in the code promises that values missing for some trains of a
    control source are written with a count of 0; instead write() fails. *)
Theorem C24_missing_control_refuted : exists d : dcoll Z, reachable d /\ orderly d /\ separate_keys d /\
  (forall s k, available d s k -> exists a, get_array d s k = Ok a) /\ forall name, write name d = Err EAssertionError.
Proof.
  exists late_run. destruct C24_succeeds_example as (_ & _ & _ & _ & _ & H1 & H2 & H3 & H4 & H5).
  do 4 (split; [assumption|]). intros name. now apply C24_write_succeeds.
Qed.
Print Assumptions C24_missing_control_refuted.

(** Sequence files which interleave: rows are written under other trains. *)
Definition inter3 : h5file Z := mk_h5 "a.h5" (Some [1;3]%Z) (Some "1.0") None (Some ["INSTRUMENT/CAM:daq/data"])
  [("CAM:daq/data", mk_ix [0;1]%Z (IxCount [1;1]%Z))] [("INSTRUMENT/CAM:daq/data/pix", dsZ [10;30]%Z)].
Definition inter4 : h5file Z := mk_h5 "b.h5" (Some [2;4]%Z) (Some "1.0") None (Some ["INSTRUMENT/CAM:daq/data"])
  [("CAM:daq/data", mk_ix [0;1]%Z (IxCount [1;1]%Z))] [("INSTRUMENT/CAM:daq/data/pix", dsZ [20;40]%Z)].
Definition inter_run : dcoll Z := force no_coll (open_files [inter3; inter4]).
Theorem C24_interleaved_refuted : exists (d : dcoll Z) name f d' t r r' s k,
  reachable d /\ good_collection d /\ plain_names d /\ no_nesting d /\ StronglySorted Z.lt (dc_tids d) /\
  (forall s k, available d s k -> good_index d s k) /\
  write name d = Ok f /\ open_one f = Ok d' /\ good_collection d' /\
  train_from_id d t = Ok (t, r) /\ train_from_id d' t = Ok (t, r') /\ item r' s k <> item r s k.
Proof.
  exists inter_run, "n.h5". eexists. eexists. exists 2%Z. eexists. eexists. exists "CAM:daq", "data.pix".
  split; [apply (@open_files_reachable [inter3; inter4]); reflexivity|]. split; [apply good_collectionb_ok; reflexivity|].
  split; [apply plain_namesb_ok; reflexivity|]. split; [apply no_nestingb_ok; reflexivity|]. split; [apply sorted_ltb_ok; reflexivity|].
  split; [apply good_indexesb_ok; reflexivity|]. split; [vm_compute; reflexivity|]. split; [vm_compute; reflexivity|].
  split; [apply good_collectionb_ok; vm_compute; reflexivity|]. split; [vm_compute; reflexivity|]. split; [vm_compute; reflexivity|]. vm_compute. discriminate.
Qed.
Print Assumptions C24_interleaved_refuted.

(** ** C25 *)
Theorem C25_index_covers : forall (V : Type) (d : dcoll V) name f,
  reachable d -> distinct_kinds d -> plain_names d -> good_files d -> (forall s k, available d s k -> good_index d s k) -> NoDup (dc_tids d) ->
  write name d = Ok f -> forall s k, available d s k ->
  exists g ds, dict_get (index_key (is_control d s) s k) (h5_index f) = Some g /\
    dict_get (data_key (is_control d s) s k) (h5_data f) = Some ds /\
    valid_index (List.length (dc_tids d)) (List.length (ds_rows ds)) g.
Proof.
  intros V d name f Hr Hk Hp Hg Hi HN Hf s k A. apply (@written_index V (@read_real V) d name f Hr Hk Hp Hg Hi HN); [|exact Hf|exact A|].
  - intros c s' k' a _ H. destruct (read_real_ok H) as (a' & E & G & _). injection E as ->. exact G.
  - intros E. destruct (read_real_ok E) as (a & X & _). discriminate.
Qed.
Print Assumptions C25_index_covers.
Theorem C25_index_shape : forall (V : Type) (d : dcoll V) name f, write name d = Ok f \/ write_virtual name d = Ok f ->
  h5_trainid f = Some (dc_tids d) /\
  forall path g, dict_get path (h5_index f) = Some g -> exists n, valid_index (List.length (dc_tids d)) n g.
Proof.
  intros V d name f [H|H]; (split; [destruct (write_content H) as (? & ? & -> & _); reflexivity|exact (@written_index_shape V _ d name f H)]).
Qed.
Print Assumptions C25_index_shape.
Example C25_example : reachable inter_run /\ distinct_kinds inter_run /\ plain_names inter_run /\ good_files inter_run /\
  (forall s k, available inter_run s k -> good_index inter_run s k) /\ NoDup (dc_tids inter_run) /\
  (exists f, write "n.h5" inter_run = Ok f) /\ available inter_run "CAM:daq" "data.pix".
Proof.
  split; [apply (@open_files_reachable [inter3; inter4]); reflexivity|]. split; [apply distinct_kindsb_ok; reflexivity|].
  split; [apply plain_namesb_ok; reflexivity|]. split; [apply good_filesb_ok; reflexivity|]. split; [apply good_indexesb_ok; reflexivity|].
  split; [apply nodupb_ok; reflexivity|]. split; [eexists; vm_compute; reflexivity|]. apply fieldsb_iff. vm_compute. tauto.
Qed.

(** ** C26 *)
(** The check for train IDs out of order never fails, whatever they are. *)
Theorem C26_check_is_vacuous : forall tids data_tids, exists firsts counts, generate_index tids data_tids = Ok (firsts, counts).
Proof. intros. eexists. eexists. apply generate_index_counts. Qed.
Print Assumptions C26_check_is_vacuous.
Theorem C26_out_of_order_refuted : exists (d : dcoll Z) name f d' s k a a',
  reachable d /\ good_collection d /\ get_array d s k = Ok a /\ ~ StronglySorted Z.le (la_labels a) /\
  write name d = Ok f /\ open_one f = Ok d' /\ get_array d' s k = Ok a' /\
  la_rows a' = la_rows a /\ la_labels a' <> la_labels a.
Proof.
  exists inter_run, "n.h5". eexists. eexists. exists "CAM:daq", "data.pix". eexists. eexists.
  split; [apply (@open_files_reachable [inter3; inter4]); reflexivity|]. split; [apply good_collectionb_ok; reflexivity|].
  split; [vm_compute; reflexivity|]. split.
  { intros H. cbn [la_labels] in H. inversion H as [|? ? H1 _]. inversion H1 as [|? ? _ K]. inversion K. lia. }
  split; [vm_compute; reflexivity|]. split; [vm_compute; reflexivity|]. split; [vm_compute; reflexivity|].
  split; [reflexivity|]. vm_compute. discriminate.
Qed.
Print Assumptions C26_out_of_order_refuted.

(** ** C27 *)
Theorem C27_virtual_dataset : forall (V : Type) (d : dcoll V) s k a,
  reachable d -> good_collection d -> available d s k -> good_index d s k -> get_array d s k = Ok a -> la_rows a <> [] ->
  get_virtual_dataset d s k = Ok (mk_ds (la_dtype a) (la_item a) (la_rows a)).
Proof. intros V d s k a H1 H2 H3 H4 H5 H6. rewrite (virtual_dataset H1 H2 H3 H4 H5). destruct (la_rows a); [congruence|reflexivity]. Qed.
Print Assumptions C27_virtual_dataset.
Theorem C27_virtual_empty : forall (V : Type) (d : dcoll V) s k a,
  reachable d -> good_collection d -> available d s k -> good_index d s k -> get_array d s k = Ok a -> la_rows a = [] ->
  get_virtual_dataset d s k = Err ETypeError.
Proof. intros V d s k a H1 H2 H3 H4 H5 H6. rewrite (virtual_dataset H1 H2 H3 H4 H5). now rewrite H6. Qed.
Print Assumptions C27_virtual_empty.
Theorem C27_write_virtual : forall (V : Type) (d : dcoll V) name, reachable d -> orderly d -> separate_keys d ->
  (forall s k, available d s k -> exists a, get_array d s k = Ok a) ->
  exists f d', write_virtual name d = Ok f /\ open_one f = Ok d' /\ dc_tids d' = dc_tids d /\
    (forall s k, available d' s k <-> available d s k /\ exists a, get_array d s k = Ok a /\ la_rows a <> []) /\
    (forall s k, available d' s k -> is_control d' s = is_control d s /\ get_array d' s k = get_array d s k) /\
    (forall s k, available d' s k -> exists g ds, dict_get (index_key (is_control d s) s k) (h5_index f) = Some g /\
       dict_get (data_key (is_control d s) s k) (h5_data f) = Some ds /\ valid_index (List.length (dc_tids d)) (List.length (ds_rows ds)) g) /\
    (control_complete d -> forall t r, In t (dc_tids d) -> train_from_id d t = Ok (t, r) ->
       exists r', train_from_id d' t = Ok (t, r') /\ forall s k, item r' s k = item r s k).
Proof.
  intros V d name Hr Ho Hs Ha. assert (Ho' := Ho). destruct Ho' as (Hg & Hgi & Hp & Hn & Hord & Hne & Hpos).
  destruct (write_virtual_total name Hr Hg Hp Hn Hs Hgi Ha) as [f Hf]. exists f.
  assert (Hread : forall c s k o, selected_field d (c, s, k) -> read_virtual d c s k = Ok o ->
     exists a, get_array d s k = Ok a /\ (o = Some a /\ la_rows a <> [] \/ o = None /\ la_rows a = [])).
  { intros c s k o Hsel E. apply selected_available in Hsel as [A _]; [|exact Hr|apply Hg]. destruct (Ha s k A) as [a G]. exists a. split; [exact G|].
    rewrite (virtual_same c Hr (proj1 Hg) (Hgi s k A) G) in E. injection E as <-. destruct (la_rows a); [right|left]; split; congruence. }
  destruct (@round_trip V (@read_virtual V) d name f Hr Ho) as (d' & Ed & _ & Ht & AV & AR & TR); [|exact Hf|].
  { intros c s k o Hsel E. destruct (Hread c s k o Hsel E) as (a & G & [[X _]|X]); exists a; auto. }
  exists d'. split; [exact Hf|]. split; [exact Ed|]. split; [exact Ht|]. split; [|split; [exact AR|split]].
  - intros s k. rewrite AV. split; intros [A B]; (split; [exact A|]).
    + destruct (Ha s k A) as [a G]. exists a. split; [exact G|]. intros E. apply B.
      rewrite (virtual_same _ Hr (proj1 Hg) (Hgi s k A) G), E. reflexivity.
    + destruct B as (a & G & B). rewrite (virtual_same _ Hr (proj1 Hg) (Hgi s k A) G). destruct (la_rows a); [congruence|discriminate].
  - intros s k A. apply AV in A as [A B]. apply (@written_index V (@read_virtual V) d name f Hr (proj1 Hg) Hp (proj1 (proj2 Hg)) Hgi (StronglySorted_NoDup_lt (proj1 Hord))); try assumption.
    intros c s' k' a Hsel E. destruct (Hread c s' k' _ Hsel E) as (a' & G & [[X _]|[X _]]); [injection X as ->; exact G|discriminate].
  - intros CC. apply TR. intros s k a A Ec G. destruct (control_labels Hr Hg A (Hgi s k A) Ec G) as [L1 L2].
    rewrite <- (get_array_lengths G). apply Nat.le_antisymm; apply NoDup_incl_length.
    + exact L1. + intros t Ht1. now apply L2. + exact (StronglySorted_NoDup_lt (proj1 Hord)). + intros t Ht1. apply L2. split; [exact Ht1|]. exact (CC s k t Ec A Ht1).
Qed.
Print Assumptions C27_write_virtual.
Example C27_example : reachable run /\ orderly run /\ separate_keys run /\ control_complete run /\
  (forall s k, available run s k -> exists a, get_array run s k = Ok a) /\
  get_virtual_dataset run "DET:out" "image.data" = Ok (dsZ [1;2;3;4;5;6;7;8]%Z).
Proof.
  split; [exact run_reachable|]. split; [apply orderlyb_ok; reflexivity|]. split; [apply separate_keysb_ok; reflexivity|].
  split; [apply control_completeb_ok; reflexivity|]. split; [apply readableb_ok; reflexivity|]. vm_compute. reflexivity.
Qed.

(** A control source without a value for the first train: train_from_id on the
    virtual file shows the value of another train. *)
Theorem C27_virtual_control_refuted : exists (d : dcoll Z) name f d' t r r' s k,
  reachable d /\ orderly d /\ separate_keys d /\ write_virtual name d = Ok f /\ open_one f = Ok d' /\
  train_from_id d t = Ok (t, r) /\ train_from_id d' t = Ok (t, r') /\ get_array d' s k = get_array d s k /\ item r' s k <> item r s k.
Proof.
  exists late_run, "n.h5". eexists. eexists. exists 2%Z. eexists. eexists. exists "XGM", "v".
  destruct C24_succeeds_example as (_ & _ & _ & _ & _ & H1 & H2 & H3 & H4 & H5).
  do 3 (split; [assumption|]). split; [vm_compute; reflexivity|]. split; [vm_compute; reflexivity|]. split; [vm_compute; reflexivity|]. split; [vm_compute; reflexivity|].
  split; [vm_compute; reflexivity|]. vm_compute. discriminate.
Qed.
Print Assumptions C27_virtual_control_refuted.
