(** C74: detector_info, train_info and info. *)

From Verif Require Import Base PyStr M_Files M_Machinery M_Reader M_Glob M_Select S_Reader S_Coll S_Series S_Stacking S_Components
  L_Base L_Reader L_Select L_Check L_Check2 L_Check3 Ex_Files M_Info S_Info L_Info P_Reader.
Local Open Scope string_scope.
Local Open Scope list_scope.

(** ** C74 *)

(** detector_info looks at the file of the source with the smallest name.  Whichever element set.pop takes: frames_per_train
    is a number of frames which a train has there (0 only if no train has frames), the warning is given exactly if two
    trains have different numbers of frames, both not 0; total_frames is frames_per_train times the number of trains; and
    dims are the last two lengths of the dataset. *)
Theorem C74_detector_info : forall (V : Type) pop (d : dcoll V) s, reachable d -> distinct_kinds d -> good_files d -> In s (dc_inst d) ->
  readable_index d s "image.data" ->
  (forall f, In f (dc_files d) -> In s (fa_sources f) -> exists ds, dict_get ("INSTRUMENT/" ++ s ++ "/image/data")%string (h5_data (fa_file f)) = Some ds) ->
  (forall l, l <> [] -> In (pop l) l) ->
  exists r f ds, detector_info pop d s = Ok r /\ first_file d s f /\
    dict_get ("INSTRUMENT/" ++ s ++ "/image/data")%string (h5_data (fa_file f)) = Some ds /\
    (exists before, Z.of_nat (List.length (ds_rows ds)) :: ds_item ds = before ++ di_dims r) /\
    List.length (di_dims r) = Nat.min 2 (List.length (ds_item ds) + 1) /\
    di_total r = (di_frames r * Z.of_nat (List.length (dc_tids d)))%Z /\
    (di_frames r = 0 -> forall c, frames_of f s c -> c = 0)%Z /\
    (di_frames r <> 0%Z -> frames_of f s (di_frames r)) /\
    (di_warned r = true <-> exists c c', frames_of f s c /\ frames_of f s c' /\ c <> 0 /\ c' <> 0 /\ c <> c')%Z.
Proof.
  intros V pop d s H1 H2 H3 H4 H5 H6 H7. destruct (@detector_info_spec V pop d s H1 H2 H3 H4 H5 H6 H7) as (r & f & ds & E & A & B & D & R).
  exists r, f, ds. split; [exact E|]. split; [exact A|]. split; [exact B|]. rewrite D. unfold last_two. split; [|split; [|exact R]].
  - eexists. symmetry. apply firstn_skipn.
  - rewrite skipn_length. cbn [List.length]. lia.
Qed.
Print Assumptions C74_detector_info.

(** If every train of the source has 0 or [n] frames, in all files, the answer is [n] without a warning, get_array of the
    images has at most total_frames rows, and exactly so many if no train is without frames. *)
Theorem C74_uniform : forall (V : Type) pop (d : dcoll V) s n, reachable d -> distinct_kinds d -> good_files d -> In s (dc_inst d) ->
  good_index d s "image.data" ->
  (forall f, In f (dc_files d) -> In s (fa_sources f) -> exists ds, dict_get ("INSTRUMENT/" ++ s ++ "/image/data")%string (h5_data (fa_file f)) = Some ds) ->
  (forall l, l <> [] -> In (pop l) l) ->
  n <> 0%Z -> (forall f c, In f (dc_files d) -> In s (fa_sources f) -> frames_of f s c -> c = 0 \/ c = n)%Z ->
  (forall f, first_file d s f -> frames_of f s n) ->
  exists r, detector_info pop d s = Ok r /\ di_frames r = n /\ di_warned r = false /\
    forall a, get_array d s "image.data" = Ok a ->
      (Z.of_nat (List.length (la_rows a)) <= di_total r)%Z /\
      (NoDup (dc_tids d) -> (forall t, In t (dc_tids d) -> exists f, holds d f s t /\ file_count (fa_file f) false s "image.data" t n) ->
       Z.of_nat (List.length (la_rows a)) = di_total r).
Proof. intros V pop d s n. exact (@uniform_frames V pop d s n). Qed.
Print Assumptions C74_uniform.

(** A detector with 2 frames per train in two files, none for train 21. *)
Definition det_file (name : string) (tids firsts counts rows : list Z) : h5file Z := mk_h5 name (Some tids) (Some "1.0") None
  (Some ["CONTROL/XGM"; "INSTRUMENT/SPB/DET/3CH0:xtdf/image"; "INSTRUMENT/CAM:daq/data"])
  [("XGM", mk_ix (map Z.of_nat (seq 0 (List.length tids))) (IxCount (map (fun _ => 1%Z) tids)));
   ("SPB/DET/3CH0:xtdf/image", mk_ix firsts (IxCount counts)); ("CAM:daq/data", mk_ix (map (fun _ => 0%Z) tids) (IxCount (map (fun _ => 0%Z) tids)))]
  [("CONTROL/XGM/pos", dsZ tids); ("INSTRUMENT/SPB/DET/3CH0:xtdf/image/data", mk_ds "f4" [512; 128]%Z rows); ("INSTRUMENT/CAM:daq/data/pix", dsZ [])].
Definition det_run : dcoll Z := force no_coll (open_files [det_file "b.h5" [22;23]%Z [0;2]%Z [2;2]%Z [5;6;7;8]%Z;
                                                          det_file "a.h5" [20;21]%Z [0;2]%Z [2;0]%Z [1;2]%Z]).
Definition pop_first (l : list Z) : Z := hd 0%Z l.

Lemma pop_first_ok : forall l, l <> [] -> In (pop_first l) l.
Proof. intros [|x l] H; [congruence|now left]. Qed.

(** The trains and numbers of frames of a file, as a list. *)
Lemma frames_of_list : forall (f : faccess Z) s l raw g, h5_trainid (fa_file f) = Some raw -> fa_tids f = raw -> NoDup raw ->
  dict_get (index_key false s "image.data") (h5_index (fa_file f)) = Some g ->
  (forall p c, (p < List.length raw)%nat -> entry_count g p = Some c -> In c l) ->
  forall c, frames_of f s c -> In c l.
Proof.
  intros f s l raw g H1 H2 H3 H4 H5 c (t & Ht & (raw' & p & g' & R1 & R2 & R3 & R4 & R5)).
  rewrite H1 in R1. injection R1 as <-. rewrite H4 in R4. injection R4 as <-. apply (H5 p); [|assumption].
  apply nth_error_Some. congruence.
Qed.

Example C74_example :
  reachable det_run /\ distinct_kinds det_run /\ good_files det_run /\ In "SPB/DET/3CH0:xtdf" (dc_inst det_run) /\
  good_index det_run "SPB/DET/3CH0:xtdf" "image.data" /\
  (forall f, In f (dc_files det_run) -> In "SPB/DET/3CH0:xtdf" (fa_sources f) -> exists ds, dict_get "INSTRUMENT/SPB/DET/3CH0:xtdf/image/data" (h5_data (fa_file f)) = Some ds) /\
  (forall f c, In f (dc_files det_run) -> In "SPB/DET/3CH0:xtdf" (fa_sources f) -> frames_of f "SPB/DET/3CH0:xtdf" c -> c = 0 \/ c = 2)%Z /\
  (forall f, first_file det_run "SPB/DET/3CH0:xtdf" f -> frames_of f "SPB/DET/3CH0:xtdf" 2%Z) /\
  detector_info pop_first det_run "SPB/DET/3CH0:xtdf" = Ok (mk_dinfo [512; 128]%Z 2 8 false) /\
  (exists a, get_array det_run "SPB/DET/3CH0:xtdf" "image.data" = Ok a /\ la_rows a = [1;2;5;6;7;8]%Z) /\
  run_info pop_first true det_run = Ok (mk_rinfo 4 3 20 23 1 ["SPB"] (Some ("SPB", "3", "SPB/DET/3CH0:xtdf", mk_dinfo [512; 128]%Z 2 8 false)) ["CAM:daq"] ["XGM"]) /\
  train_info det_run 21 = Ok (["CAM:daq"; "SPB/DET/3CH0:xtdf"], ["XGM"]).
Proof.
  split; [apply (@open_files_reachable [det_file "b.h5" [22;23]%Z [0;2]%Z [2;2]%Z [5;6;7;8]%Z; det_file "a.h5" [20;21]%Z [0;2]%Z [2;0]%Z [1;2]%Z]); reflexivity|].
  split; [apply distinct_kindsb_ok; reflexivity|]. split; [apply good_filesb_ok; reflexivity|]. split; [vm_compute; auto|].
  split; [apply good_indexb_ok; reflexivity|]. split.
  { intros f Hf _. change (dc_files det_run) with [nth 0 (dc_files det_run) (mk_fa file1 [] [] []); nth 1 (dc_files det_run) (mk_fa file1 [] [] [])] in Hf.
    destruct Hf as [<-|[<-|[]]]; eexists; reflexivity. }
  split.
  { intros f c Hf _ Hc. assert (X : In c [0; 2]%Z); [|destruct X as [<-|[<-|[]]]; auto].
    change (dc_files det_run) with [nth 0 (dc_files det_run) (mk_fa file1 [] [] []); nth 1 (dc_files det_run) (mk_fa file1 [] [] [])] in Hf.
    destruct Hf as [<-|[<-|[]]]; (refine (@frames_of_list _ _ _ _ _ _ _ _ _ _ c Hc); [reflexivity|reflexivity| |reflexivity| ]).
    1, 3: repeat constructor; simpl; intuition discriminate.
    all: intros p c'; destruct p as [|[|p]]; cbn; intros Hp E; try lia; injection E as <-; auto. }
  split.
  { intros f (Hf & _ & Hmin). change (dc_files det_run) with [nth 0 (dc_files det_run) (mk_fa file1 [] [] []); nth 1 (dc_files det_run) (mk_fa file1 [] [] [])] in Hf, Hmin.
    destruct Hf as [<-|[<-|[]]].
    - assert (X := Hmin _ (or_intror (or_introl eq_refl)) ltac:(vm_compute; auto)). vm_compute in X. discriminate.
    - exists 20%Z. split; [vm_compute; auto|]. exists [20;21]%Z, 0%nat, (mk_ix [0;2]%Z (IxCount [2;0]%Z)). repeat split. intros q Hq. lia. }
  split; [vm_compute; reflexivity|]. split; [eexists; split; vm_compute; reflexivity|]. split; vm_compute; reflexivity.
Qed.

(** The estimate comes from one file: with 1 frame per train in the first file and 3 in the second, there are more
    frames than total_frames, and there is no warning. *)
Theorem C74_estimate_refuted : exists (d : dcoll Z) s a, reachable d /\ good_collection d /\ good_index d s "image.data" /\
  get_array d s "image.data" = Ok a /\
  forall pop, (forall l, l <> [] -> In (pop l) l) ->
    exists r, detector_info pop d s = Ok r /\ di_warned r = false /\ (di_total r < Z.of_nat (List.length (la_rows a)))%Z.
Proof.
  pose (l := [det_file "a.h5" [20;21]%Z [0;1]%Z [1;1]%Z [1;2]%Z; det_file "b.h5" [22;23]%Z [0;3]%Z [3;3]%Z [3;4;5;6;7;8]%Z]).
  exists (force no_coll (open_files l)), "SPB/DET/3CH0:xtdf", (mk_la "f4" [512;128]%Z [20;21;22;22;22;23;23;23]%Z [1;2;3;4;5;6;7;8]%Z).
  split; [apply (@open_files_reachable l); reflexivity|]. split; [apply good_collectionb_ok; reflexivity|].
  split; [apply good_indexb_ok; reflexivity|]. split; [vm_compute; reflexivity|].
  intros pop Hpop. exists (mk_dinfo [512;128]%Z 1 4 false). split; [|split; [reflexivity|vm_compute; reflexivity]].
  assert (P : pop [1%Z] = 1%Z) by (destruct (Hpop [1%Z]) as [X|[]]; [discriminate|congruence]).
  transitivity (Ok (mk_dinfo [512;128]%Z (pop [1%Z]) (pop [1%Z] * 4) false)); [vm_compute; reflexivity|]. now rewrite P.
Qed.
Print Assumptions C74_estimate_refuted.

(** train_info lists, without repetition and in order, the sources of the files which hold the train; ValueError if the
    train is not in the collection. *)
Theorem C74_train_info : forall (V : Type) (d : dcoll V) t,
  (In t (dc_tids d) -> exists inst ctrl, train_info d t = Ok (inst, ctrl) /\ StronglySorted name_lt inst /\ StronglySorted name_lt ctrl /\
     (forall s, In s inst <-> exists f, In f (dc_files d) /\ In t (fa_tids f) /\ In s (fa_inst f)) /\
     (forall s, In s ctrl <-> exists f, In f (dc_files d) /\ In t (fa_tids f) /\ In s (fa_ctrl f))) /\
  (~ In t (dc_tids d) -> train_info d t = Err EValueError).
Proof. intros V d t. exact (@train_info_spec V d t). Qed.
Print Assumptions C74_train_info.

(** It lists also sources which the selection has taken away. *)
Theorem C74_ignores_selection_refuted : exists (d : dcoll Z) t s inst ctrl, reachable d /\ good_collection d /\
  ~ In s (dc_sources d) /\ train_info d t = Ok (inst, ctrl) /\ In s inst.
Proof.
  pose (d := force no_coll (select det_run (SelGlobs [("XGM", "*")]))).
  exists d, 20%Z, "CAM:daq", ["CAM:daq"; "SPB/DET/3CH0:xtdf"], ["XGM"].
  split; [apply (@reach_select Z det_run (SelGlobs [("XGM", "*")])); [exact (proj1 C74_example)|vm_compute; reflexivity]|].
  split; [apply good_collectionb_ok; reflexivity|]. split; [vm_compute; intuition discriminate|]. split; [vm_compute; reflexivity|now left].
Qed.
Print Assumptions C74_ignores_selection_refuted.

(** info: what is printed.  Each fast data source is counted either as a detector module or in the list of the other
    instrument sources; the example module is the first one by name and number. *)
Theorem C74_info : forall (V : Type) pop np (d : dcoll V) i, run_info pop np d = Ok i ->
  in_trains i = List.length (dc_tids d) /\ nth_error (dc_tids d) 0 = Some (in_first i) /\
  nth_error (dc_tids d) (List.length (dc_tids d) - 1) = Some (in_last i) /\ in_span i = (if np then (in_last i - in_first i) mod 2 ^ 64 else in_last i - in_first i)%Z /\
  (-999999999 * 864000 <= in_span i < 1000000000 * 864000)%Z /\
  (exists mods, in_modules i = List.length mods /\ Permutation (dc_inst d) (mods ++ in_inst i) /\
     (forall s, In s mods -> exists name ds, module_named s name ds)) /\
  (forall s name ds, In s (in_inst i) -> ~ module_named s name ds) /\
  StronglySorted name_le (in_inst i) /\ StronglySorted name_le (in_ctrl i) /\ Permutation (dc_ctrl d) (in_ctrl i) /\
  StronglySorted name_lt (in_names i) /\
  (forall name, In name (in_names i) <-> exists s ds, In s (dc_inst d) /\ module_named s name ds) /\
  match in_example i with
  | None => forall s name ds, In s (dc_inst d) -> ~ module_named s name ds
  | Some (name, ds, s, di) => In s (dc_inst d) /\ module_named s name ds /\ detector_info pop d s = Ok di /\
      forall s' name' ds', In s' (dc_inst d) -> module_named s' name' ds' -> module_le (name, ds) (name', ds')
  end.
Proof.
  intros V pop np d i H. destruct (@run_info_spec V pop np d i H) as (H1 & H2 & H3 & H4 & H5 & H6). repeat (split; [assumption|]). split; [|exact H6].
  unfold span_days in H5. pose proof (Z.div_mod (in_span i) 864000 ltac:(lia)). pose proof (Z.mod_pos_bound (in_span i) 864000 ltac:(lia)). lia.
Qed.
Print Assumptions C74_info.

(** When info succeeds: there are trains, and every detector module can be described; without trains it is an IndexError. *)
Theorem C74_info_ok : forall (V : Type) pop np (d : dcoll V),
  (dc_tids d = [] -> run_info pop np d = Err EIndexError) /\
  (forall first last, nth_error (dc_tids d) 0 = Some first -> nth_error (dc_tids d) (List.length (dc_tids d) - 1) = Some last ->
   (0 <= last - first < 1000000000 * 864000)%Z ->
   (forall s name ds, In s (dc_inst d) -> module_named s name ds -> exists di, detector_info pop d s = Ok di) ->
   exists i, run_info pop np d = Ok i /\ in_span i = (last - first)%Z).
Proof.
  intros V pop np d. split; [exact (@run_info_no_trains V pop np d)|]. intros first last HF HL HR HD.
  assert (SP : train_span np first last = (last - first)%Z) by (destruct np; [apply Z.mod_small; lia|reflexivity]).
  destruct (@run_info_ends V pop np d first last HF HL) as [_ HO]. destruct HO as [i Hi]; [|exact HD|].
  - rewrite SP. unfold span_days. assert (0 <= (last - first) / 864000 < 1000000000)%Z by (split; [apply Z.div_pos; lia|apply Z.div_lt_upper_bound; lia]). lia.
  - exists i. split; [exact Hi|]. destruct (@run_info_spec V pop np d i Hi) as (_ & H2 & H3 & H4 & _). rewrite H4, <- SP. congruence.
Qed.
Print Assumptions C74_info_ok.

(** info fails with KeyError for a good collection with a detector source which has no group 'image'. *)
Theorem C74_no_images_refuted : exists d : dcoll Z, reachable d /\ good_collection d /\ dc_tids d <> [] /\
  forall pop np, run_info pop np d = Err EKeyError.
Proof.
  pose (f := mk_h5 "c.h5" (Some [20]%Z) (Some "1.0") None (Some ["INSTRUMENT/SPB/DET/3CH0:xtdf/header"])
    [("SPB/DET/3CH0:xtdf/header", mk_ix [0]%Z (IxCount [1]%Z))] [("INSTRUMENT/SPB/DET/3CH0:xtdf/header/len", dsZ [1]%Z)]).
  exists (force no_coll (open_files [f])). split; [apply (@open_files_reachable [f]); reflexivity|].
  split; [apply good_collectionb_ok; reflexivity|]. split; [vm_compute; discriminate|]. intros pop [|]; vm_compute; reflexivity.
Qed.
Print Assumptions C74_no_images_refuted.

(** For trains selected backwards, as by select_trains(by_index[::-1]), the difference of the unsigned train IDs wraps around,
    and info() raises OverflowError. *)
Theorem C74_backwards_refuted : forall (V : Type) pop (d : dcoll V) first last,
  nth_error (dc_tids d) 0 = Some first -> nth_error (dc_tids d) (List.length (dc_tids d) - 1) = Some last ->
  (last < first < 2 ^ 63)%Z -> (0 <= last)%Z -> run_info pop true d = Err EOverflowError.
Proof.
  intros V pop d first last HF HL HR H0. destruct (@run_info_ends V pop true d first last HF HL) as [HO _]. apply HO.
  unfold train_span, span_days. replace ((last - first) mod 2 ^ 64)%Z with (last - first + 2 ^ 64)%Z.
  2: { apply (Z.mod_unique _ _ (-1)); lia. }
  assert (999999999 < (last - first + 2 ^ 64) / 864000)%Z; [|lia]. apply Z.lt_le_trans with (2 ^ 63 / 864000)%Z; [vm_compute; reflexivity|]. apply Z.div_le_mono; lia.
Qed.
Print Assumptions C74_backwards_refuted.
Example C74_backwards_example : exists d, reachable d /\ select_trains det_run (ByIndex (mk_slice None None (Some (-1)%Z))) = Ok d /\
  dc_tids d = [23; 22; 21; 20]%Z.
Proof.
  assert (H : select_trains det_run (ByIndex (mk_slice None None (Some (-1)%Z))) = Ok (force no_coll (select_trains det_run (ByIndex (mk_slice None None (Some (-1)%Z))))))
    by (vm_compute; reflexivity).
  eexists. split; [exact (@reach_trains _ _ _ _ (proj1 C74_example) H)|]. split; [exact H|vm_compute; reflexivity].
Qed.
