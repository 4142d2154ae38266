(** The dimensions of detector arrays: their names, their lengths, and the pixels of the frames (C100). *)
From Verif Require Import Base PyStr M_Files M_Machinery M_Reader M_Glob M_Select M_Series M_Stacking M_Nd M_Cxi M_Components M_Grid M_DetDims
  S_Reader S_Coll S_Glob S_Avail S_Series S_Stacking S_Components S_OpenRun S_Grid S_DetDims
  L_Base L_Select L_Components7 L_Check L_Check2 L_Check3 L_Cxi7 Ex_Files P_Series P_Stacking P_Components L_DetDims L_DetDims2.
Set Implicit Arguments.
Local Open Scope string_scope.
Local Open Scope list_scope.

(** ** The axes of one array of frames *)
(** Rows of shape [item] with labels (train, pulse): accepted exactly if there is one label for each row, no label is repeated
    and frames have 0, 2 or 3 dimensions after leaving out a first dimension of length 1.  The result has the dimensions train and
    pulse, increasing, and those of a frame; at the labels of a row there are the values of this row, elsewhere NaN (None). *)
Theorem C100_axes : forall (A : Type) (data : nd A) labels n item, Forall (fun z => 0 <= z)%Z item -> nd_shape data = n :: map Z.to_nat item ->
  match guess_axes_nd data labels with
  | Ok x => List.length labels = n /\ NoDup labels /\ exists ts ps names,
      frame_names (List.length (frame_item item)) names /\
      xa_dims x = "train" :: "pulse" :: names /\
      xa_shape x = List.length ts :: List.length ps :: map Z.to_nat (frame_item item) /\
      StronglySorted Z.lt ts /\ StronglySorted Z.lt ps /\
      (forall t, In t ts <-> exists p, In (t, p) labels) /\ (forall p, In p ps <-> exists t, In (t, p) labels) /\
      forall i j t p idx, nth_error ts i = Some t -> nth_error ps j = Some p -> List.length idx = List.length (frame_item item) ->
        (forall q, nth_error labels q = Some (t, p) -> xa_at x (i :: j :: idx) = Some (nd_at data (q :: row_index item idx))) /\
        (~ In (t, p) labels -> xa_at x (i :: j :: idx) = None)
  | Err e => e = EValueError /\ (List.length labels <> n \/ ~ NoDup labels \/ forall names, ~ frame_names (List.length (frame_item item)) names)
  end.
Proof. intros A data labels n item H0 H. exact (guess_axes_nd_spec labels H0 H). Qed.
Print Assumptions C100_axes.
(** The model used for the other properties of detectors, in which a frame is one value, gives the same array. *)
Theorem C100_frames : forall (A : Type) (data : nd A) labels n item, Forall (fun z => 0 <= z)%Z item -> nd_shape data = n :: map Z.to_nat item ->
  match guess_axes first_pixels item (map (fun i idx => nd_at data (i :: idx)) (seq 0 n)) labels with
  | Ok a => exists x, guess_axes_nd data labels = Ok x /\
      xa_shape x = List.length (gr_trains (unstack a)) :: List.length (gr_pulses (unstack a)) :: map Z.to_nat (ar_item a) /\
      forall i j t row c idx, nth_error (gr_rows (unstack a)) i = Some (t, row) -> nth_error row j = Some c ->
        List.length idx = List.length (ar_item a) -> xa_at x (i :: j :: idx) = match c with Some v => Some (v idx) | None => None end
  | Err e => guess_axes_nd data labels = Err e
  end.
Proof. intros A data labels n item H0 H. exact (guess_axes_frames labels H0 H). Qed.
Print Assumptions C100_frames.

(** Three frames of 2 x 2 pixels, stored with a dimension of length 1; train 7 has pulses 1 and 3, train 5 only 3. *)
Definition stored : nd Z := mk_nd "u2" [3; 1; 2; 2]%nat
  (fun idx => match idx with [q; 0%nat; s; f] => (100 * Z.of_nat q + 10 * Z.of_nat s + Z.of_nat f)%Z | _ => (-1)%Z end).
Example C100_axes_example : exists x, guess_axes_nd stored [(7, 3); (5, 3); (7, 1)]%Z = Ok x /\
  xa_dims x = ["train"; "pulse"; "slow_scan"; "fast_scan"] /\ xa_shape x = [2; 2; 2; 2]%nat /\
  map (fun p => xa_at x [fst p; snd p; 1; 0]%nat) [(0, 0); (0, 1); (1, 0); (1, 1)]%nat = [None; Some 110; Some 210; Some 10]%Z.
Proof. eexists. split; [vm_compute; reflexivity|]. vm_compute. auto. Qed.
Example C100_axes_refused : guess_axes_nd stored [(7, 3); (7, 3); (7, 1)]%Z = Err EValueError /\
  guess_axes_nd stored [(7, 3); (5, 3)]%Z = Err EValueError /\
  guess_axes_nd (mk_nd "u2" [2; 4]%nat (fun _ => 0%Z)) [(7, 3); (5, 3)]%Z = Err EValueError.
Proof. vm_compute. auto. Qed.

(** ** The array of a detector *)
(** Its dimensions are module, train and pulse, and those of a frame.  All frames read have the shape of the last dimensions.
    The element at given positions is the pixel of the row stored for the module, the train and the pulse at these positions, if
    the row is there and was asked for; otherwise it is NaN. *)
Theorem C100_pixels : forall (A : Type) (pulse : (list nat -> A) -> Z) tag (d : dcoll (list nat -> A)) nm modules min m k arg x,
  detector_of tag d nm modules min m -> good_modules first_pixels pulse d m modules k -> usable_sel arg -> starts_with "image." k = true ->
  det_get_xarray pulse m k arg = Ok x ->
  exists ms ts ps shape names,
    xa_dims x = "module" :: "train" :: "pulse" :: names /\ frame_names (List.length shape) names /\
    xa_shape x = List.length ms :: List.length ts :: List.length ps :: map Z.to_nat shape /\
    StronglySorted Z.lt ms /\ StronglySorted Z.lt ts /\ StronglySorted Z.lt ps /\
    (forall n, In n ms <-> exists s, is_module_of d (mx_name m) modules s n) /\
    (forall t, In t ts <-> exists n p item v, det_row pulse d m modules k arg n t p item v) /\
    (forall p, In p ps <-> exists n t item v, det_row pulse d m modules k arg n t p item v) /\
    (forall n t p item v, det_row pulse d m modules k arg n t p item v -> shape = frame_item item) /\
    (forall i j l n t p, nth_error ms i = Some n -> nth_error ts j = Some t -> nth_error ps l = Some p -> forall idx a,
       xa_at x (i :: j :: l :: idx) = Some a <->
       exists item v, det_row pulse d m modules k arg n t p item v /\ a = v (row_index item idx)).
Proof. intros A pulse tag d nm modules min m k arg x HD HG Hu Hk H. exact (det_pixels HD HG Hu Hk H). Qed.
Print Assumptions C100_pixels.
(** Data with one value per train has the dimensions module, trainId, dim_0, dim_1, ... *)
Theorem C100_train_pixels : forall (A : Type) (pulse : (list nat -> A) -> Z) tag (d : dcoll (list nat -> A)) nm modules min m k arg x,
  detector_of tag d nm modules min m -> starts_with "image." k = false -> det_get_xarray pulse m k arg = Ok x ->
  exists ms ts shape names,
    xa_dims x = "module" :: "trainId" :: names /\ List.length names = List.length shape /\
    (forall i name, nth_error names i = Some name -> exists num, name = ("dim_" ++ num)%string /\ numeral num (Z.of_nat i)) /\
    xa_shape x = List.length ms :: List.length ts :: map Z.to_nat shape /\
    StronglySorted Z.lt ms /\ (forall n, In n ms <-> exists s, is_module_of d (mx_name m) modules s n) /\
    (forall t, In t ts <-> exists s n a, is_module_of d (mx_name m) modules s n /\ get_array (mx_data m) s k = Ok a /\ In t (la_labels a)) /\
    (forall i n s, nth_error ms i = Some n -> is_module_of d (mx_name m) modules s n ->
      exists a, get_array (mx_data m) s k = Ok a /\ la_item a = shape /\
        (la_labels a = ts -> forall j v idx, nth_error (la_rows a) j = Some v -> xa_at x (i :: j :: idx) = Some (v idx)) /\
        (NoDup (la_labels a) -> forall j t idx b, nth_error ts j = Some t ->
           (xa_at x (i :: j :: idx) = Some b <-> exists q v, nth_error (la_labels a) q = Some t /\ nth_error (la_rows a) q = Some v /\ b = v idx))).
Proof.
  intros A pulse tag d nm modules min m k arg x HD Hk H. destruct (det_train_pixels HD Hk H) as (ms & ts & shape & names & H1 & H2 & H3 & H4).
  exists ms, ts, shape, names. split; [assumption|]. split; [assumption|]. split; [|exact H4].
  intros i name Hi. exists (str_of_int (Z.of_nat i)). split; [exact (H3 i name Hi)|]. destruct (@str_of_int_spec (Z.of_nat i)) as (B1 & B2 & B3); [lia|]. split; auto.
Qed.
Print Assumptions C100_train_pixels.

(** A detector with two modules, frames of 2 x 3 pixels; the pixels of the module 3 are stored with a dimension of length 1. *)
Definition frame_at (base : Z) (idx : list nat) : Z := match idx with [s; f] => (base + 10 * Z.of_nat s + Z.of_nat f)%Z | _ => (-1)%Z end.
Definition raw_at (base : Z) (idx : list nat) : Z := match idx with [0%nat; s; f] => (base + 10 * Z.of_nat s + Z.of_nat f)%Z | _ => (-1)%Z end.
Definition one_number (z : Z) (idx : list nat) : Z := z.
Definition the_number (v : list nat -> Z) : Z := v [].
Definition pix_file (fn n : string) (tids firsts counts : list Z) (pulses : list Z) (item : list Z) (rows : list (list nat -> Z)) : h5file (list nat -> Z) :=
  mk_h5 fn (Some tids) (Some "1.0") None (Some [("INSTRUMENT/" ++ mod_name n ++ "/image")%string; ("INSTRUMENT/" ++ mod_name n ++ "/header")%string])
    [((mod_name n ++ "/image")%string, mk_ix firsts (IxCount counts));
     ((mod_name n ++ "/header")%string, mk_ix (map Z.of_nat (seq 0 (List.length tids))) (IxCount (map (fun _ => 1%Z) tids)))]
    [(("INSTRUMENT/" ++ mod_name n ++ "/image/data")%string, mk_ds "u2" item rows);
     (("INSTRUMENT/" ++ mod_name n ++ "/image/pulseId")%string, mk_ds "u8" [] (map one_number pulses));
     (("INSTRUMENT/" ++ mod_name n ++ "/header/code")%string, mk_ds "u8" [2]%Z (map (fun t idx => match idx with [i] => (t + Z.of_nat i)%Z | _ => (-1)%Z end) tids))].
Definition pix_files : list (h5file (list nat -> Z)) :=
  [pix_file "AGIPD00" "0" [10; 11]%Z [0; 2]%Z [2; 2]%Z [0; 4; 0; 4]%Z [2; 3]%Z (map frame_at [1000; 2000; 3000; 4000]%Z);
   pix_file "AGIPD03" "3" [10; 11]%Z [0; 2]%Z [2; 0]%Z [0; 4]%Z [1; 2; 3]%Z (map raw_at [5000; 6000]%Z)].
Definition pix_none : dcoll (list nat -> Z) := mk_dc [] [] [] [] [].
Definition pix_run : dcoll (list nat -> Z) := force pix_none (let* fs := mapM (@fa_open _) pix_files in mk_collection fs None None).
Definition pix_det : mpx (list nat -> Z) := force (mk_mpx "" pix_none [] 0) (mpx_open "AGIPD" pix_run None None 1).
(** The results hold functions; only what is asked of them is computed. *)
Lemma forced : forall A (d : A) r, match r with Ok _ => true | Err _ => false end = true -> r = Ok (force d r).
Proof. intros A d [a|e] H; [reflexivity|discriminate]. Qed.
Lemma made : forall A (r : res A) (P : A -> Prop), match r with Ok x => P x | Err _ => False end -> exists x, r = Ok x /\ P x.
Proof. intros A [a|e] P H; [exists a; auto|destruct H]. Qed.
Example pix_made : detector_of "AGIPD" pix_run None None 1 pix_det /\ good_modules first_pixels the_number pix_run pix_det None "image.data" /\
  usable_sel (PulsesById (PvSlice None None None)).
Proof.
  assert (R : reachable pix_run) by (apply (@open_reachable _ pix_files (force [] (mapM (@fa_open _) pix_files)));
    [apply forced; vm_compute; reflexivity|unfold pix_run; rewrite (@forced _ [] (mapM (@fa_open _) pix_files)) at 2 by (vm_compute; reflexivity); apply forced; vm_compute; reflexivity]).
  split; [|split; [apply good_modulesb_ok; [exact R|]; vm_compute; reflexivity|simpl; auto]].
  split; [exact R|]. split; [apply distinct_kindsb_ok; vm_compute; reflexivity|]. split; [apply good_filesb_ok; vm_compute; reflexivity|].
  split; [apply countableb_ok; vm_compute; reflexivity|]. apply forced. vm_compute. reflexivity.
Qed.
Example C100_pixels_example : exists x, det_get_xarray the_number pix_det "image.data" (PulsesById (PvSlice None None None)) = Ok x /\
  xa_dims x = ["module"; "train"; "pulse"; "slow_scan"; "fast_scan"] /\ xa_shape x = [2; 2; 2; 2; 3]%nat /\
  map (xa_at x) [[0; 0; 0; 0; 0]; [0; 1; 1; 1; 2]; [1; 0; 1; 1; 2]; [1; 1; 0; 0; 0]]%nat = [Some 1000; Some 4012; Some 6012; None]%Z.
Proof. apply made. vm_compute. auto. Qed.
Example C100_train_pixels_example : exists x, det_get_xarray the_number pix_det "header.code" (PulsesById (PvSlice None None None)) = Ok x /\
  xa_dims x = ["module"; "trainId"; "dim_0"] /\ xa_shape x = [2; 2; 2]%nat /\
  map (xa_at x) [[0; 0; 0]; [0; 1; 1]; [1; 1; 0]]%nat = [Some 10; Some 12; Some 11]%Z.
Proof. apply made. vm_compute. auto. Qed.
