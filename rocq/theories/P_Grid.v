(** The arrays of detector data have the axes module, train and pulse; every cell is the frame with these labels (C77). *)
From Verif Require Import Base PyStr M_Files M_Machinery M_Reader M_Glob M_Select M_Series M_Stacking M_Components M_Grid
  S_Reader S_Coll S_Glob S_Avail S_Series S_Stacking S_Components S_Grid
  L_Base L_Select L_Components7 L_Check L_Check2 L_Check3 Ex_Files P_Series P_Stacking P_Components L_Grid3.
Set Implicit Arguments.
Local Open Scope string_scope.
Local Open Scope list_scope.

(** ** Data by pulse *)
(** The axes are the modules, the trains with a chosen frame of any module and the pulses of chosen frames, all increasing;
    the cell for a module, a train and a pulse is the frame of that module in that train for that pulse, if it was chosen,
    and NaN (None) if there is none. *)
Theorem C77_grid : forall (V : Type) (first : V -> V) (pulse : V -> Z) tag (d : dcoll V) nm modules min m k arg r,
  detector_of tag d nm modules min m -> good_modules first pulse d m modules k -> usable_sel arg -> starts_with "image." k = true ->
  det_get_grid first pulse m k arg = Ok r ->
  exists g, r = PulseGrid g /\
    StronglySorted Z.lt (dg_modules g) /\ StronglySorted Z.lt (dg_trains g) /\ StronglySorted Z.lt (dg_pulses g) /\
    (forall n, In n (dg_modules g) <-> exists s, is_module_of d (mx_name m) modules s n) /\
    (forall t, In t (dg_trains g) <-> exists n p v, det_frame first pulse d m modules k arg n t p v) /\
    (forall p, In p (dg_pulses g) <-> exists n t v, det_frame first pulse d m modules k arg n t p v) /\
    has_shape3 (dg_cells g) (List.length (dg_modules g)) (List.length (dg_trains g)) (List.length (dg_pulses g)) /\
    (forall i j l n t p, nth_error (dg_modules g) i = Some n -> nth_error (dg_trains g) j = Some t -> nth_error (dg_pulses g) l = Some p ->
       forall v, cell3 (dg_cells g) i j l = Some (Some v) <-> det_frame first pulse d m modules k arg n t p v).
Proof. intros V first pulse tag d nm modules min m k arg r HD HG Hu Hk H. exact (proj2 (proj2 (grid_spec HD HG Hu Hk)) r H). Qed.
Print Assumptions C77_grid.
(** Making the grid never fails when reading succeeds, and raises the exception of reading otherwise: C39_accepts, C39_gap_error and
    C40_index_order say when this is. *)
Theorem C77_outcome : forall (V : Type) (first : V -> V) (pulse : V -> Z) tag (d : dcoll V) nm modules min m k arg,
  detector_of tag d nm modules min m -> good_modules first pulse d m modules k -> usable_sel arg -> starts_with "image." k = true ->
  (forall e, det_get_array first pulse m k arg = Err e -> det_get_grid first pulse m k arg = Err e) /\
  (forall l, det_get_array first pulse m k arg = Ok l -> exists r, det_get_grid first pulse m k arg = Ok (PulseGrid r)).
Proof. intros V first pulse tag d nm modules min m k arg HD HG Hu Hk. destruct (grid_spec HD HG Hu Hk) as (H1 & H2 & _). split; assumption. Qed.
Print Assumptions C77_outcome.
(** Module 3 has no frames in train 11: NaN. *)
Example C77_example : det_get_grid idZ idZ det1 "image.data" (PulsesById (PvList [8; 4]%Z)) =
  Ok (PulseGrid (mk_dgrid [] [0; 3] [10; 11; 12] [4; 8]
    [[[Some 101; Some 102]; [Some 111; Some 112]; [Some 121; Some 122]];
     [[Some 301; Some 302]; [None; None]; [Some 321; Some 322]]]))%Z.
Proof. vm_compute. reflexivity. Qed.
(** The files of a module need not be in the order of their trains, and trains can have different pulses. *)
Definition mixed_files : list (h5file Z) :=
  [mod_file "AGIPD00-S0" "0" [12; 13]%Z [0; 2]%Z [2; 2]%Z [5; 9; 0; 9]%Z [120; 121; 130; 131]%Z;
   mod_file "AGIPD00-S1" "0" [10; 11]%Z [0; 2]%Z [2; 2]%Z [0; 4; 0; 4]%Z [100; 101; 110; 111]%Z].
Definition mixed_run : dcoll Z := force no_coll (open_files mixed_files).
Definition mixed_det : mpx Z := force no_mpx (mpx_open "AGIPD" mixed_run None None 1).
Example mixed_made : detector_of "AGIPD" mixed_run None None 1 mixed_det /\ good_modules idZ idZ mixed_run mixed_det None "image.data" /\
  usable_sel (PulsesByIndex (PvSlice None None None)).
Proof.
  assert (R : reachable mixed_run) by (apply (open_files_reachable mixed_files); vm_compute; reflexivity).
  split; [|split; [apply good_modulesb_ok; [exact R|]; vm_compute; reflexivity|simpl; auto]].
  split; [exact R|]. split; [apply distinct_kindsb_ok; vm_compute; reflexivity|]. split; [apply good_filesb_ok; vm_compute; reflexivity|].
  split; [apply countableb_ok; vm_compute; reflexivity|]. vm_compute. reflexivity.
Qed.
Example C77_mixed_example : det_get_grid idZ idZ mixed_det "image.data" (PulsesByIndex (PvSlice None None None)) =
  Ok (PulseGrid (mk_dgrid [] [0] [10; 11; 12; 13] [0; 4; 5; 9]
    [[[Some 100; Some 101; None; None]; [Some 110; Some 111; None; None];
      [None; None; Some 120; Some 121]; [Some 130; None; None; Some 131]]]))%Z.
Proof. vm_compute. reflexivity. Qed.

(** ** Data by train *)
(** The axis of trains has the trains of all modules; it is increasing unless all modules have the same labels, in the same
    order.  A cell is the value of the module in that train, NaN if it has none. *)
Theorem C77_trains : forall (V : Type) (first : V -> V) (pulse : V -> Z) tag (d : dcoll V) nm modules min m k arg r,
  detector_of tag d nm modules min m -> starts_with "image." k = false -> det_get_grid first pulse m k arg = Ok r ->
  exists g, r = TrainGrid g /\ StronglySorted Z.lt (tg_modules g) /\
    (forall n, In n (tg_modules g) <-> exists s, is_module_of d (mx_name m) modules s n) /\
    (forall s n, is_module_of d (mx_name m) modules s n -> exists a, get_array (mx_data m) s k = Ok a /\ la_item a = tg_item g) /\
    (forall t, In t (tg_trains g) <-> exists s n a, is_module_of d (mx_name m) modules s n /\ get_array (mx_data m) s k = Ok a /\ In t (la_labels a)) /\
    ((forall s n a, is_module_of d (mx_name m) modules s n -> get_array (mx_data m) s k = Ok a -> la_labels a = tg_trains g) \/
     (StronglySorted Z.lt (tg_trains g) /\ forall s n a, is_module_of d (mx_name m) modules s n -> get_array (mx_data m) s k = Ok a -> NoDup (la_labels a))) /\
    has_shape2 (tg_cells g) (List.length (tg_modules g)) (List.length (tg_trains g)) /\
    (forall i n s a, nth_error (tg_modules g) i = Some n -> is_module_of d (mx_name m) modules s n -> get_array (mx_data m) s k = Ok a ->
      (la_labels a = tg_trains g -> forall j, cell2 (tg_cells g) i j = option_map Some (nth_error (la_rows a) j)) /\
      (NoDup (la_labels a) -> forall j t, nth_error (tg_trains g) j = Some t -> forall v,
         cell2 (tg_cells g) i j = Some (Some v) <-> exists q, nth_error (la_labels a) q = Some t /\ nth_error (la_rows a) q = Some v)).
Proof. intros V first pulse tag d nm modules min m k arg r HD Hk H. exact (train_grid_spec HD Hk H). Qed.
Print Assumptions C77_trains.
Theorem C77_trains_accepts : forall (V : Type) (first : V -> V) (pulse : V -> Z) tag (d : dcoll V) nm modules min m k arg item,
  detector_of tag d nm modules min m -> usable_sel arg -> starts_with "image." k = false ->
  (forall s n, is_module_of d (mx_name m) modules s n -> exists a, get_array (mx_data m) s k = Ok a /\ la_item a = item) ->
  ((forall s n a, is_module_of d (mx_name m) modules s n -> get_array (mx_data m) s k = Ok a -> la_labels a <> []) \/
   (forall s n a, is_module_of d (mx_name m) modules s n -> get_array (mx_data m) s k = Ok a -> la_labels a = [])) ->
  ((exists L, forall s n a, is_module_of d (mx_name m) modules s n -> get_array (mx_data m) s k = Ok a -> la_labels a = L) \/
   (forall s n a, is_module_of d (mx_name m) modules s n -> get_array (mx_data m) s k = Ok a -> NoDup (la_labels a))) ->
  exists r, det_get_grid first pulse m k arg = Ok r.
Proof. intros V first pulse tag d nm modules min m k arg item HD Hu Hk Hall He Hc. exact (train_grid_accepts first pulse HD Hu Hk Hall He Hc). Qed.
Print Assumptions C77_trains_accepts.
(** If a module has no values in any train, others have, ValueError. *)
Theorem C77_trains_empty : forall (V : Type) (first : V -> V) (pulse : V -> Z) tag (d : dcoll V) nm modules min m k arg s n a s' n' a',
  detector_of tag d nm modules min m -> usable_sel arg -> starts_with "image." k = false ->
  is_module_of d (mx_name m) modules s n -> get_array (mx_data m) s k = Ok a -> la_rows a = [] ->
  is_module_of d (mx_name m) modules s' n' -> get_array (mx_data m) s' k = Ok a' -> la_rows a' <> [] ->
  (forall s n, is_module_of d (mx_name m) modules s n -> exists a, get_array (mx_data m) s k = Ok a) ->
  det_get_grid first pulse m k arg = Err EValueError.
Proof.
  intros V first pulse tag d nm modules min m k arg s n a s' n' a' HD Hu Hk Hs Ha Hn Hs' Ha' Hne Hall.
  exact (train_grid_empty first pulse HD Hu Hk Hs Ha Hn Hs' Ha' Hne Hall).
Qed.
Print Assumptions C77_trains_empty.
(** The arrays of the modules must have the same shape but for the number of trains. *)
Theorem C77_trains_parts : forall (V : Type) (first : V -> V) (pulse : V -> Z) tag (d : dcoll V) nm modules min m k arg,
  detector_of tag d nm modules min m -> usable_sel arg -> starts_with "image." k = false ->
  (forall s n, is_module_of d (mx_name m) modules s n -> exists a, get_array (mx_data m) s k = Ok a) ->
  ((exists item, forall s n a, is_module_of d (mx_name m) modules s n -> get_array (mx_data m) s k = Ok a -> la_item a = item) ->
     exists l, det_get_array first pulse m k arg = Ok (ByTrain l) /\ StronglySorted Z.lt (map fst l) /\
       forall n a, In (n, a) l <-> exists s, is_module_of d (mx_name m) modules s n /\ get_array (mx_data m) s k = Ok a) /\
  ((exists s n a s' n' a', is_module_of d (mx_name m) modules s n /\ get_array (mx_data m) s k = Ok a /\
      is_module_of d (mx_name m) modules s' n' /\ get_array (mx_data m) s' k = Ok a' /\ la_item a <> la_item a') ->
     det_get_array first pulse m k arg = Err EValueError /\ det_get_grid first pulse m k arg = Err EValueError).
Proof. intros V first pulse tag d nm modules min m k arg HD Hu Hk Hall. exact (train_parts first pulse HD Hu Hk Hall). Qed.
Print Assumptions C77_trains_parts.
(** Several values in a train and modules with different trains: ValueError, no array. *)
Theorem C77_trains_refused : forall (V : Type) (first : V -> V) (pulse : V -> Z) tag (d : dcoll V) nm modules min m k arg s n a s' n' a',
  detector_of tag d nm modules min m -> usable_sel arg -> starts_with "image." k = false ->
  is_module_of d (mx_name m) modules s n -> get_array (mx_data m) s k = Ok a -> ~ NoDup (la_labels a) ->
  is_module_of d (mx_name m) modules s' n' -> get_array (mx_data m) s' k = Ok a' -> la_labels a <> la_labels a' ->
  (forall s n, is_module_of d (mx_name m) modules s n -> exists a, get_array (mx_data m) s k = Ok a) ->
  det_get_grid first pulse m k arg = Err EValueError.
Proof.
  intros V first pulse tag d nm modules min m k arg s n a s' n' a' HD Hu Hk Hs Ha Hn Hs' Ha' Hne Hall.
  exact (train_grid_refused first pulse HD Hu Hk Hs Ha Hn Hs' Ha' Hne Hall).
Qed.
Print Assumptions C77_trains_refused.
(** Two modules with one header value per train; module 3 has no train 11. *)
Definition head_file (fn n : string) (tids hfirsts hcounts vals : list Z) : h5file Z :=
  mk_h5 fn (Some tids) (Some "1.0") None (Some [("INSTRUMENT/" ++ mod_name n ++ "/image"); ("INSTRUMENT/" ++ mod_name n ++ "/header")]%string)
    [((mod_name n ++ "/image")%string, mk_ix (map (fun i => Z.of_nat i) (seq 0 (List.length tids))) (IxCount (map (fun _ => 1%Z) tids)));
     ((mod_name n ++ "/header")%string, mk_ix hfirsts (IxCount hcounts))]
    [(("INSTRUMENT/" ++ mod_name n ++ "/image/data")%string, dsZ tids); (("INSTRUMENT/" ++ mod_name n ++ "/image/pulseId")%string, dsZ (map (fun _ => 0%Z) tids));
     (("INSTRUMENT/" ++ mod_name n ++ "/header/x")%string, dsZ vals)].
Definition head_files (c : Z) : list (h5file Z) :=
  [head_file "AGIPD00" "0" [10; 11; 12]%Z [0; 1; 2]%Z [1; 1; 1]%Z [100; 110; 120]%Z;
   head_file "AGIPD03" "3" [10; 12]%Z [0; c]%Z [c; 1]%Z (if (c =? 1)%Z then [300; 320] else [300; 301; 320])%Z].
Definition head_run (c : Z) : dcoll Z := force no_coll (open_files (head_files c)).
Definition head_det (c : Z) : mpx Z := force no_mpx (mpx_open "AGIPD" (head_run c) None None 1).
Example head_made : forall c, c = 1%Z \/ c = 2%Z -> detector_of "AGIPD" (head_run c) None None 1 (head_det c).
Proof.
  intros c [-> | ->].
  all: split; [match goal with |- reachable (head_run ?c) => apply (open_files_reachable (head_files c)); vm_compute; reflexivity end|]; split; [apply distinct_kindsb_ok; vm_compute; reflexivity|];
    split; [apply good_filesb_ok; vm_compute; reflexivity|]; split; [apply countableb_ok; vm_compute; reflexivity|]; vm_compute; reflexivity.
Qed.
Example C77_trains_example :
  det_get_grid idZ idZ (head_det 1) "header.x" (PulsesByIndex (PvSlice None None None)) =
    Ok (TrainGrid (mk_tgrid [] [0; 3] [10; 11; 12] [[Some 100; Some 110; Some 120]; [Some 300; None; Some 320]]))%Z /\
  (** With two values of module 3 in train 10. *)
  det_get_grid idZ idZ (head_det 2) "header.x" (PulsesByIndex (PvSlice None None None)) = Err EValueError.
Proof. split; vm_compute; reflexivity. Qed.
(** Module 3 without header values. *)
Definition empty_head_run : dcoll Z := force no_coll (open_files
  [head_file "AGIPD00" "0" [10; 11; 12]%Z [0; 1; 2]%Z [1; 1; 1]%Z [100; 110; 120]%Z; head_file "AGIPD03" "3" [10; 12]%Z [0; 0]%Z [0; 0]%Z []]).
Definition empty_head_det : mpx Z := force no_mpx (mpx_open "AGIPD" empty_head_run None None 1).
Example C77_trains_empty_example : List.length (mx_modules empty_head_det) = 2%nat /\
  map (fun s => match get_array (mx_data empty_head_det) s "header.x" with Ok a => Some (la_labels a, la_rows a) | Err _ => None end) [mod_name "0"; mod_name "3"] =
    [Some ([10; 11; 12], [100; 110; 120]); Some ([], [])]%Z /\
  det_get_grid idZ idZ empty_head_det "header.x" (PulsesByIndex (PvSlice None None None)) = Err EValueError.
Proof. repeat split; vm_compute; reflexivity. Qed.
