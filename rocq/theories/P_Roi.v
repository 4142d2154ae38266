(** C72: get_array with a region of interest. *)

From Verif Require Import Base L_Base PyStr M_Files M_Reader M_Select M_Nd M_Cxi M_Roi S_Open S_Stacking S_OpenRun S_Roi L_Roi L_Stacking3 L_Cxi7 S_Avail L_Field Ex_Files.

Local Open Scope string_scope.
Local Open Scope list_scope.

(** ** C72 *)

(** The array with a region of interest is the whole array indexed with [:, roi]: same labels, element type,
    shape and elements; if numpy refuses to index the whole array so, the same exception is raised.
    Slices which go backwards are excluded, see below. *)
Theorem C72_roi_selects : forall (V E : Type) (elt : V -> list nat -> E) junk (d : dcoll V) s k a roi,
  get_array d s k = Ok a -> Forall forwards roi ->
  match nd_index (as_nd elt junk a) (full_slice :: roi) with
  | Ok b => exists c, get_array_roi elt junk d s k None (ByTuple roi) = Ok c /\
                      ra_labels c = la_labels a /\ nd_same (ra_data c) b
  | Err e => get_array_roi elt junk d s k None (ByTuple roi) = Err e
  end.
Proof.
  intros V E elt junk d s k a roi Ha HF. pose proof (get_array_roi_eq elt junk d s k None eq_refl HF (r := ByTuple roi)) as H. rewrite Ha in H.
  destruct (nd_index (as_nd elt junk a) (full_slice :: roi)) as [b|e] eqn:Eb; [|exact H]. destruct H as (c & Hs & H).
  exists (mk_ra ("trainId" :: dim_names (nd_ndim b - 1)) (la_labels a) c). split; [|split; [reflexivity|exact Hs]]. rewrite H. cbv zeta. unfold dim_names. rewrite map_length, seq_length.
  assert (N : (0 < nd_ndim b)%nat).
  { unfold nd_index in Eb. apply bind_ok in Eb as (full & E1 & Eb). apply bind_ok in Eb as (sels & E2 & Eb). rewrite <- (Ok_inj Eb). clear Eb.
    unfold nd_ndim in *. cbn [nd_shape as_nd List.length] in *. rewrite expand_cons in E1. apply bind_ok in E1 as (l & _ & E1). injection E1 as <-.
    cbn [resolve] in E2. rewrite full_slice_seq in E2. cbn [bind] in E2. apply bind_ok in E2 as (ss & _ & E2). injection E2 as <-. cbn [sel_shape List.length]. lia. }
  replace (S (nd_ndim b - 1)) with (nd_ndim b) by lia. now rewrite Nat.eqb_refl.
Qed.
Print Assumptions C72_roi_selects.

(** A region of interest does not make data appear: where the whole array cannot be had, neither can a part. *)
Theorem C72_no_array : forall (V E : Type) (elt : V -> list nat -> E) junk (d : dcoll V) s k extra roi c,
  Forall forwards roi -> get_array_roi elt junk d s k extra (ByTuple roi) = Ok c -> exists a, get_array d s k = Ok a.
Proof.
  intros V E elt junk d s k extra roi c HF Hc. pose proof (get_array_roi_eq elt junk d s k extra eq_refl HF (r := ByTuple roi)) as H.
  destruct (get_array d s k) as [a|x]; [eauto|]. destruct H as (y & H). congruence.
Qed.
Print Assumptions C72_no_array.

(** A single index is the tuple with it; the default (...) gives the whole array. *)
Theorem C72_single : forall (V E : Type) (elt : V -> list nat -> E) junk (d : dcoll V) s k extra i,
  get_array_roi elt junk d s k extra (ByOne i) = get_array_roi elt junk d s k extra (ByTuple [i]).
Proof. reflexivity. Qed.
Print Assumptions C72_single.
Theorem C72_default : forall (V E : Type) (elt : V -> list nat -> E) junk (d : dcoll V) s k a,
  get_array d s k = Ok a ->
  exists c, get_array_roi elt junk d s k None (ByOne IEllipsis) = Ok c /\
            ra_labels c = la_labels a /\ nd_same (ra_data c) (as_nd elt junk a).
Proof.
  intros V E elt junk d s k a Ha. exact (get_array_roi_default elt junk Ha).
Qed.
Print Assumptions C72_default.

(** by_index[lo:hi] of rows with one dimension gives the values number lo to hi - 1 of each row. *)
Theorem C72_window : forall (V E : Type) (elt : V -> list nat -> E) junk (d : dcoll V) s k a n lo hi,
  get_array d s k = Ok a -> la_item a = [n] -> (0 <= lo <= hi)%Z -> (hi <= n)%Z ->
  exists c, get_array_roi elt junk d s k None (ByOne (ISlice (mk_slice (Some lo) (Some hi) None))) = Ok c /\
    nd_shape (ra_data c) = [List.length (la_rows a); Z.to_nat (hi - lo)] /\
    forall i v j, nth_error (la_rows a) i = Some v -> (Z.of_nat j < hi - lo)%Z ->
      nd_at (ra_data c) [i; j] = elt v [Z.to_nat lo + j]%nat.
Proof. intros V E elt junk d s k a n lo hi Ha Hi H1 H2. exact (get_array_roi_window elt junk Ha Hi H1 H2). Qed.
Print Assumptions C72_window.

(** by_index[z] gives one value of each row; it counts from the end if z is negative. *)
Theorem C72_one_value : forall (V E : Type) (elt : V -> list nat -> E) junk (d : dcoll V) s k a n z,
  get_array d s k = Ok a -> la_item a = [n] -> (- n <= z < n)%Z ->
  exists c, get_array_roi elt junk d s k None (ByOne (IInt z)) = Ok c /\
    nd_shape (ra_data c) = [List.length (la_rows a)] /\
    forall i v, nth_error (la_rows a) i = Some v ->
      nd_at (ra_data c) [i] = elt v [Z.to_nat (if Z.ltb z 0 then z + n else z)%Z].
Proof. intros V E elt junk d s k a n z Ha Hi H. exact (get_array_roi_int elt junk Ha Hi H). Qed.
Print Assumptions C72_one_value.

(** The dimensions are called trainId, dim_0, dim_1, ..., or as the caller wants; a wrong number of
    names is an error. *)
Theorem C72_default_names : forall (V E : Type) (elt : V -> list nat -> E) junk (d : dcoll V) s k r c,
  get_array_roi elt junk d s k None r = Ok c ->
  List.length (ra_dims c) = nd_ndim (ra_data c) /\ nth_error (ra_dims c) 0 = Some "trainId" /\
  forall i, (S i < nd_ndim (ra_data c))%nat ->
    exists num, nth_error (ra_dims c) (S i) = Some ("dim_" ++ num)%string /\ numeral num (Z.of_nat i).
Proof. intros V E elt junk d s k r c H. exact (get_array_roi_names H). Qed.
Print Assumptions C72_default_names.
Theorem C72_given_names : forall (V E : Type) (elt : V -> list nat -> E) junk (d : dcoll V) s k r c names,
  get_array_roi elt junk d s k None r = Ok c ->
  get_array_roi elt junk d s k (Some names) r =
    if Nat.eqb (S (List.length names)) (nd_ndim (ra_data c)) then Ok (mk_ra ("trainId" :: names) (ra_labels c) (ra_data c))
    else Err EValueError.
Proof. intros V E elt junk d s k r c names H. exact (get_array_roi_given names H). Qed.
Print Assumptions C72_given_names.

(** Anything but a by_index object is refused. *)
Theorem C72_not_by_index : forall (V E : Type) (elt : V -> list nat -> E) junk (d : dcoll V) s k extra,
  available d s k -> get_array_roi elt junk d s k extra NotByIndex = Err ETypeError.
Proof. intros V E elt junk d s k extra H. unfold get_array_roi. apply check_field_iff in H. now rewrite H. Qed.
Print Assumptions C72_not_by_index.

(** Slices which go backwards can be applied to the array, but not given as a region of interest. *)
Definition strip (v : Z) (idx : list nat) : Z := match idx with [j] => (10 * v + Z.of_nat j)%Z | _ => (-1)%Z end.
Definition strip_file : h5file Z := mk_h5 "strip.h5" (Some [1;2;3]%Z) (Some "1.0") None (Some ["INSTRUMENT/CAM:daq/data"])
  [("CAM:daq/data", mk_ix [0;1;1]%Z (IxCount [1;0;2]%Z))] [("INSTRUMENT/CAM:daq/data/pix", mk_ds "f4" [4]%Z [5;6;7]%Z)].
Definition strip_run : dcoll Z := force no_coll (open_files [strip_file]).
Definition backwards : npix := ISlice (mk_slice None None (Some (-1)%Z)).
Theorem C72_backwards_refuted : exists (d : dcoll Z) s k a b,
  reachable d /\ get_array d s k = Ok a /\ nd_index (as_nd strip 0%Z a) [full_slice; backwards] = Ok b /\
  get_array_roi strip 0%Z d s k None (ByOne backwards) = Err EValueError.
Proof.
  eexists strip_run, "CAM:daq", "data.pix", _, _. split; [apply (@open_files_reachable [strip_file]); reflexivity|].
  split; [reflexivity|]. split; reflexivity.
Qed.
Print Assumptions C72_backwards_refuted.

Example C72_example :
  reachable strip_run /\ available strip_run "CAM:daq" "data.pix" /\
  get_array strip_run "CAM:daq" "data.pix" = Ok (mk_la "f4" [4]%Z [1;3;3]%Z [5;6;7]%Z) /\
  exists c, get_array_roi strip 0%Z strip_run "CAM:daq" "data.pix" None (ByOne (ISlice (mk_slice (Some 1) None (Some 2))))%Z = Ok c /\
    ra_dims c = ["trainId"; "dim_0"] /\ ra_labels c = [1;3;3]%Z /\ nd_shape (ra_data c) = [3; 2]%nat /\
    map (nd_at (ra_data c)) [[0;0];[0;1];[1;0];[1;1];[2;0];[2;1]]%nat = [51;53;61;63;71;73]%Z.
Proof.
  split; [apply (@open_files_reachable [strip_file]); reflexivity|]. split; [apply check_field_iff; reflexivity|]. split; [reflexivity|].
  eexists. split; [reflexivity|]. repeat split.
Qed.
(** Files which disagree on the shape of the rows are refused also for a region which both have. *)
Definition wide_file : h5file Z := mk_h5 "wide.h5" (Some [4]%Z) (Some "1.0") None (Some ["INSTRUMENT/CAM:daq/data"])
  [("CAM:daq/data", mk_ix [0]%Z (IxCount [1]%Z))] [("INSTRUMENT/CAM:daq/data/pix", mk_ds "f4" [5]%Z [8]%Z)].
Example C72_example_shapes : let d := force no_coll (open_files [strip_file; wide_file]) in
  reachable d /\ get_array_roi strip 0%Z d "CAM:daq" "data.pix" None (ByOne (ISlice (mk_slice (Some 1) (Some 3) None)))%Z = Err EException.
Proof. split; [apply (@open_files_reachable [strip_file; wide_file]); reflexivity|]. vm_compute. reflexivity. Qed.
