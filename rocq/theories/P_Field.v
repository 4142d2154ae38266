(** C65, C66: which fields can be read; the type of arrays. *)
From Verif Require Import Base PyStr M_Files M_Machinery M_Reader M_Glob M_Select M_Series M_Writer S_Reader S_Coll S_Avail
  L_Base L_Select L_Field L_Check Ex_Files P_Series.
Local Open Scope string_scope.
Local Open Scope list_scope.

(** ** C65: exactly the sources and keys of the selection can be read *)
Theorem C65_unknown_source : forall (V : Type) (first : V -> V) (pulse : V -> Z) (d : dcoll V) s k, ~ In s (dc_sources d) ->
  get_array d s k = Err ESourceNameError /\ get_series first pulse d s k = Err ESourceNameError /\
  get_data_counts d s k = Err ESourceNameError /\ get_virtual_dataset d s k = Err ESourceNameError.
Proof.
  intros V first pulse d s k H. apply check_field_source_err with (k := k) in H.
  unfold get_array, get_series, get_data_counts, get_virtual_dataset. rewrite H. auto.
Qed.
Print Assumptions C65_unknown_source.
Theorem C65_unknown_key : forall (V : Type) (first : V -> V) (pulse : V -> Z) (d : dcoll V) s k ks,
  In s (dc_sources d) -> keys_for_source d s = Ok ks -> ~ In k ks ->
  get_array d s k = Err EPropertyNameError /\ get_series first pulse d s k = Err EPropertyNameError /\
  get_data_counts d s k = Err EPropertyNameError /\ get_virtual_dataset d s k = Err EPropertyNameError.
Proof.
  intros V first pulse d s k ks Hs Hk Hn. assert (H := check_field_key_err Hs Hk Hn).
  unfold get_array, get_series, get_data_counts, get_virtual_dataset. rewrite H. auto.
Qed.
Print Assumptions C65_unknown_key.
(** What could be read is part of the selection. *)
Theorem C65_read_is_available : forall (V : Type) (first : V -> V) (pulse : V -> Z) (d : dcoll V) s k,
  (exists a, get_array d s k = Ok a) \/ (exists a, get_series first pulse d s k = Ok a) \/
  (exists a, get_data_counts d s k = Ok a) \/ (exists a, get_virtual_dataset d s k = Ok a) -> available d s k.
Proof.
  intros V first pulse d s k H. apply check_field_iff. unfold get_array, get_series, get_data_counts, get_virtual_dataset in H.
  destruct (check_field d s k) as [[]|]; [reflexivity|]. cbn [bind] in H.
  destruct H as [(a & H)|[(a & H)|[(a & H)|(a & H)]]]; discriminate.
Qed.
Print Assumptions C65_read_is_available.
(** A selection of one key, from a run with other keys and sources. *)
Definition narrow_run : dcoll Z := force no_coll (select run (SelGlobs [("DET:out", "image.*")])).
Example C65_example : reachable narrow_run /\ dc_sources narrow_run = ["DET:out"] /\
  (exists ks, keys_for_source narrow_run "DET:out" = Ok ks /\ In "image.data" ks) /\
  (exists a, get_array run "XGM" "beam.pos" = Ok a) /\ get_array narrow_run "XGM" "beam.pos" = Err ESourceNameError /\
  (exists a, get_array narrow_run "DET:out" "image.data" = Ok a) /\ get_array narrow_run "DET:out" "header.len" = Err EPropertyNameError.
Proof.
  split; [eapply reach_select with (d := run) (a := SelGlobs [("DET:out", "image.*")]); [exact run_reachable|vm_compute; reflexivity]|].
  split; [vm_compute; reflexivity|]. split; [eexists; split; [vm_compute; reflexivity|cbn; auto]|].
  split; [eexists; vm_compute; reflexivity|]. split; [vm_compute; reflexivity|]. split; [eexists; vm_compute; reflexivity|vm_compute; reflexivity].
Qed.

(** ** C66: the type of an array is the type of the dataset in every file *)
Theorem C66_array_type : forall (V : Type) (d : dcoll V) s k a f,
  reachable d -> distinct_kinds d -> get_array d s k = Ok a -> In f (dc_files d) -> In s (fa_sources f) ->
  exists ds, dict_get (data_key (str_in s (dc_ctrl d)) s k) (h5_data (fa_file f)) = Some ds /\
    ds_dtype ds = la_dtype a /\ ds_item ds = la_item a.
Proof. intros V d s k a f. exact (@get_array_type V d s k a f). Qed.
Print Assumptions C66_array_type.
(** Files which disagree on the data type or the shape of entries are never put in one array. *)
Theorem C66_mismatch : forall (V : Type) (d : dcoll V) s k f1 f2 ds1 ds2,
  reachable d -> distinct_kinds d -> In f1 (dc_files d) -> In s (fa_sources f1) -> In f2 (dc_files d) -> In s (fa_sources f2) ->
  dict_get (data_key (str_in s (dc_ctrl d)) s k) (h5_data (fa_file f1)) = Some ds1 ->
  dict_get (data_key (str_in s (dc_ctrl d)) s k) (h5_data (fa_file f2)) = Some ds2 ->
  ds_dtype ds1 <> ds_dtype ds2 \/ ds_item ds1 <> ds_item ds2 -> exists e, get_array d s k = Err e.
Proof.
  intros V d s k f1 f2 ds1 ds2 R K F1 S1 F2 S2 D1 D2 H. destruct (get_array d s k) as [a|e] eqn:E; [exfalso|now exists e].
  destruct (get_array_type R K E F1 S1) as (x & X1 & X2 & X3). destruct (get_array_type R K E F2 S2) as (y & Y1 & Y2 & Y3).
  rewrite X1 in D1. injection D1 as ->. rewrite Y1 in D2. injection D2 as ->. destruct H; congruence.
Qed.
Print Assumptions C66_mismatch.
Definition mis_file (fn dt : string) (item : list Z) (tid : Z) : h5file Z := mk_h5 fn (Some [tid]%Z) (Some "1.0") None
  (Some ["INSTRUMENT/CAM:daq/data"]) [("CAM:daq/data", mk_ix [0]%Z (IxCount [1]%Z))]
  [("INSTRUMENT/CAM:daq/data/pix", mk_ds dt item [tid]%Z)].
Definition mis_run (dt : string) (item : list Z) : dcoll Z := force no_coll (open_files [mis_file "a" "f4" [2]%Z 1; mis_file "b" dt item 2]).
Example C66_example :
  reachable (mis_run "f4" [3]%Z) /\ distinct_kinds (mis_run "f4" [3]%Z) /\ get_array (mis_run "f4" [3]%Z) "CAM:daq" "data.pix" = Err EException /\
  reachable (mis_run "f8" [2]%Z) /\ distinct_kinds (mis_run "f8" [2]%Z) /\ get_array (mis_run "f8" [2]%Z) "CAM:daq" "data.pix" = Err EException /\
  get_array (mis_run "f4" [2]%Z) "CAM:daq" "data.pix" = Ok (mk_la "f4" [2]%Z [1; 2]%Z [1; 2]%Z).
Proof.
  split; [apply (@open_files_reachable [mis_file "a" "f4" [2]%Z 1; mis_file "b" "f4" [3]%Z 2]); reflexivity|].
  split; [apply distinct_kindsb_ok; reflexivity|]. split; [reflexivity|].
  split; [apply (@open_files_reachable [mis_file "a" "f4" [2]%Z 1; mis_file "b" "f8" [2]%Z 2]); reflexivity|].
  split; [apply distinct_kindsb_ok; reflexivity|]. split; reflexivity.
Qed.
