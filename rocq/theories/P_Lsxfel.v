(** C76: FilenameInfo and the command lsxfel. *)

From Verif Require Import Base PyStr M_Files M_Reader M_Info M_OpenRun M_Lsxfel S_Open S_Stacking S_Info S_Lsxfel Ex_Files
  L_FilesMap2 L_Lsxfel L_Lsxfel2 L_Lsxfel3.
Local Open Scope string_scope.
Local Open Scope list_scope.

(** ** C76 *)

(** FilenameInfo accepts exactly the names of four parts, and tells from the third part whether it is a file of
    aggregated data, a file of a module of AGIPD, DSSC or LPD, or unknown. *)
Theorem C76_filename : forall path b, file_name path b ->
  (forall i, filename_info path = Ok i -> exists k r s g, four_parts b k r s g /\ info_of b k s i) /\
  (forall k r s g, four_parts b k r s g -> exists i, filename_info path = Ok i) /\
  (forall e, filename_info path = Err e -> e = EAssertionError).
Proof.
  intros path b B. assert (b = basename path) by (apply (file_name_fun B), basename_spec). subst b. split; [|split].
  - intros i. exact (@filename_ok path i).
  - intros k r s g. exact (@filename_total path k r s g).
  - intros e H. exact (proj1 (@filename_err path e H)).
Qed.
Print Assumptions C76_filename.

(** The parts are determined by the name, so at most one of the three cases applies. *)
Theorem C76_parts : forall b k r s g k' r' s' g', four_parts b k r s g -> four_parts b k' r' s' g' -> k = k' /\ s = s'.
Proof. exact (@four_parts_fun). Qed.
Print Assumptions C76_parts.

Example C76_filename_example :
  filename_info "/data/r0034/CORR-R0034-AGIPD07-S00001.h5" =
    Ok (mk_fname "CORR-R0034-AGIPD07-S00001.h5" true (Some "AGIPD") (Some "07") (DText "Corrected detector data from AGIPD module 07")) /\
  filename_info "RAW-R0034-DA03-S00001.h5" = Ok (mk_fname "RAW-R0034-DA03-S00001.h5" false None None (DText "Aggregated data")) /\
  filename_info "RAW-R0034-AGIPD-S00001.h5" = Ok (mk_fname "RAW-R0034-AGIPD-S00001.h5" false None None (DPair "Unknown data source ({})" "AGIPD")) /\
  filename_info "notes-S1.h5" = Err EAssertionError.
Proof. repeat split; vm_compute; reflexivity. Qed.

(** Against the claim that a description is a text: for every unknown source it is a pair. *)
Theorem C76_description_refuted : exists path i, filename_info path = Ok i /\ forall t, fn_descr i <> DText t.
Proof. exists "RAW-R0034-XYZ01-S00001.h5". eexists. split; [vm_compute; reflexivity|]. intros t. discriminate. Qed.
Print Assumptions C76_description_refuted.

(** The line for a run directory tells the number of trains in the files of one sequence of segments, one with the
    fewest files, and the numbers of detector files and of other data files.  (A listing has each name once, without
    slashes.) *)
Theorem C76_run : forall (V : Type) (E : env (V := V)) path indent o, NoDup (e_list E path) -> Forall (fun f => ~ has_char "/" f) (e_list E path) ->
  summarise_run E path indent = (o, Ok tt) ->
  exists n d k b, o = [LRun indent b n d k] /\ file_name path b /\
    (exists g m, how_many (in_sequence E path g) m /\ (0 < m)%nat /\
       (forall g' m', how_many (in_sequence E path g') m' -> (0 < m')%nat -> (m <= m')%nat) /\
       how_many (fun t => exists f, in_sequence E path g f /\ train_in E path f t) n) /\
    how_many (fun f => In f (e_list E path) /\ data_file f /\ detector_file f) d /\
    how_many (fun f => In f (e_list E path) /\ data_file f /\ ~ detector_file f) k.
Proof. intros V E path indent o N F. exact (@summarise_run_ok V E path indent N F o). Qed.
Print Assumptions C76_run.

(** It is printed whenever there is a data file, all their names have four parts and they can be opened; a directory
    without data files is a ValueError, a data file with another number of parts an AssertionError. *)
Theorem C76_run_total : forall (V : Type) (E : env (V := V)) path indent, Forall (fun f => ~ has_char "/" f) (e_list E path) ->
  ((exists f, In f (e_list E path) /\ data_file f) ->
   (forall f, In f (e_list E path) -> data_file f -> (exists k r s g, four_parts f k r s g) /\ exists d, e_h5 E (path_join path f) = Ok d) ->
   exists o, summarise_run E path indent = (o, Ok tt)) /\
  ((forall f, In f (e_list E path) -> ~ data_file f) -> summarise_run E path indent = ([], Err EValueError)) /\
  ((exists f, In f (e_list E path) /\ data_file f /\ forall k r s g, ~ four_parts f k r s g) -> summarise_run E path indent = ([], Err EAssertionError)).
Proof.
  intros V E path indent F. split; [|split].
  - exact (@summarise_run_total V E path indent F).
  - exact (@summarise_run_none V E path indent F).
  - exact (@summarise_run_odd V E path indent F).
Qed.
Print Assumptions C76_run_total.

(** If all sequences of segments have the same trains, the number is that of all trains in the data files. *)
Theorem C76_all_trains : forall (V : Type) (E : env (V := V)) path indent o, NoDup (e_list E path) -> Forall (fun f => ~ has_char "/" f) (e_list E path) ->
  summarise_run E path indent = (o, Ok tt) ->
  (forall g g' f f' t, in_sequence E path g f -> train_in E path f t -> in_sequence E path g' f' -> exists f'', in_sequence E path g' f'' /\ train_in E path f'' t) ->
  exists b n d k, o = [LRun indent b n d k] /\ how_many (fun t => exists f, In f (e_list E path) /\ data_file f /\ train_in E path f t) n.
Proof. intros V E path indent o. exact (@same_trains V E path indent o). Qed.
Print Assumptions C76_all_trains.

(** A proposal with three runs; the second one has no files. *)
Definition trains_only (l : list Z) : dcoll Z := mk_dc [] [] [] [] l.
Definition ex_files : list string :=
  ["overview.txt"; "RAW-R0001-DA01-S00000.h5"; "RAW-R0001-AGIPD00-S00001.h5"; "RAW-R0001-AGIPD00-S00000.h5"].
Definition ex_env (da : list Z) : env (V := Z) := mk_env
  (fun p => existsb (String.eqb p) ["prop"; "prop/r0001"; "prop/r0002"; "prop/r0003"; "misc"])
  (fun p => existsb (String.eqb p) ["prop/r0001/RAW-R0001-DA01-S00000.h5"; "notes.txt"])
  (fun p => if String.eqb p "prop" then ["r0003"; "r0001"; "r0002"]
            else if existsb (String.eqb p) ["prop/r0001"; "prop/r0003"] then ex_files else if String.eqb p "misc" then ["a.txt"] else [])
  (fun p => p)
  (fun p => if ends_with "DA01-S00000.h5" p then Ok (trains_only da)
            else if ends_with "AGIPD00-S00000.h5" p then Ok (trains_only [10; 11]%Z)
            else if ends_with "AGIPD00-S00001.h5" p then Ok (trains_only [12]%Z) else Err EOSError)
  (fun p => Err EOSError).

Example C76_run_example : summarise_run (ex_env [10; 11; 12]%Z) "prop/r0001" "" = ([LRun "" "r0001" 3 2 1], Ok tt) /\
  NoDup (e_list (ex_env [10; 11; 12]%Z) "prop/r0001") /\ Forall (fun f => ~ has_char "/" f) (e_list (ex_env [10; 11; 12]%Z) "prop/r0001").
Proof.
  split; [vm_compute; reflexivity|]. split.
  - repeat constructor; cbn; intuition discriminate.
  - repeat constructor; cbn; intuition discriminate.
Qed.

(** Against the claim that it is the number of trains of the run: without that condition a sequence with fewer files
    may lack trains. *)
Theorem C76_all_trains_refuted : exists (E : env (V := Z)) path n d k, summarise_run E path "" = ([LRun "" "r0001" n d k], Ok tt) /\
  ~ how_many (fun t => exists f, In f (e_list E path) /\ data_file f /\ train_in E path f t) n.
Proof.
  exists (ex_env [10; 11]%Z), "prop/r0001", 2%nat, 2%nat, 1%nat. split; [vm_compute; reflexivity|]. intros (l & N & H & L).
  assert (A : forall t f, In f ex_files -> train_in (ex_env [10; 11]%Z) "prop/r0001" f t -> data_file f -> In t l) by (intros t f I T D; apply H; exists f; auto).
  assert (D0 : data_file "RAW-R0001-AGIPD00-S00000.h5") by (exists "RAW-R0001-AGIPD00"; apply segment_iff; vm_compute; reflexivity).
  assert (D1 : data_file "RAW-R0001-AGIPD00-S00001.h5") by (exists "RAW-R0001-AGIPD00"; apply segment_iff; vm_compute; reflexivity).
  assert (I : incl [10; 11; 12]%Z l).
  { intros t [<-|[<-|[<-|[]]]].
    - apply (A 10%Z "RAW-R0001-AGIPD00-S00000.h5"); [cbn; tauto|exists (trains_only [10; 11]%Z); split; [vm_compute; reflexivity|cbn; tauto]|exact D0].
    - apply (A 11%Z "RAW-R0001-AGIPD00-S00000.h5"); [cbn; tauto|exists (trains_only [10; 11]%Z); split; [vm_compute; reflexivity|cbn; tauto]|exact D0].
    - apply (A 12%Z "RAW-R0001-AGIPD00-S00001.h5"); [cbn; tauto|exists (trains_only [12]%Z); split; [vm_compute; reflexivity|cbn; tauto]|exact D1]. }
  assert (M : NoDup [10; 11; 12]%Z) by (repeat constructor; cbn; intuition discriminate).
  pose proof (NoDup_incl_length M I) as X. rewrite L in X. cbn in X. lia.
Qed.
Print Assumptions C76_all_trains_refuted.

(** A single path: what is printed, and the exit code. *)
Theorem C76_single : forall (V : Type) pop pick_one (E : env (V := V)) cwd p o c, main pop pick_one E cwd [p] = (o, Ok c) -> printed_alone pop pick_one E p o c.
Proof. intros V pop pick_one E cwd p o c. exact (@main_one_ok V pop pick_one E p o c). Qed.
Print Assumptions C76_single.

(** Several paths: each gets its lines, in order, and the exit code is 0 exactly if all of them are recognised. *)
Theorem C76_several : forall (V : Type) pop pick_one (E : env (V := V)) cwd p q r o c, main pop pick_one E cwd (p :: q :: r) = (o, Ok c) ->
  (exists outs, Forall2 (printed_for pop pick_one E) (p :: q :: r) outs /\ o = List.concat outs) /\
  (c = 0 \/ c = 2)%Z /\ (c = 0%Z <-> forall x, In x (p :: q :: r) -> recognised E x).
Proof. intros V pop pick_one E cwd p q r o c. exact (@main_many_spec V pop pick_one E cwd p q r o c). Qed.
Print Assumptions C76_several.

Definition any_first (l : list string) : string := hd "" l.
Definition any_pop (l : list Z) : Z := hd 0%Z l.

Example C76_several_example : main any_pop any_first (ex_env [10; 11; 12]%Z) "/" ["prop/r0001"; "misc"; "notes.txt"; "nowhere"] =
  ([LRun "" "r0001" 3 2 1; LNote "misc" BadDir; LNote "notes.txt" BadFile; LNote "nowhere" NotFound], Ok 2%Z).
Proof. vm_compute. reflexivity. Qed.

(** Against the claim that an unrecognised directory gives an exit code other than 0: not if it is the only path. *)
Theorem C76_status_refuted : exists (E : env (V := Z)) p q, recognised E q /\ ~ recognised E p /\
  snd (main any_pop any_first E "/" [p]) = Ok 0%Z /\ snd (main any_pop any_first E "/" [q; p]) = Ok 2%Z.
Proof.
  exists (ex_env [10; 11; 12]%Z), "misc", "prop/r0001". repeat split; try (vm_compute; reflexivity).
  - left. split; [vm_compute; reflexivity|]. exists "RAW-R0001-DA01-S00000.h5". split; [cbn; tauto|]. left. exists "RAW-R0001-DA01-S00000". reflexivity.
  - intros [(_ & f & I & X)|(X & _)]; [|discriminate]. cbn in I. destruct I as [<-|[]]. destruct X as [X|X].
    + apply L_Glob.ends_with_iff in X. discriminate.
    + apply run_dir_name_iff in X. discriminate.
Qed.
Print Assumptions C76_status_refuted.

(** Against the claim that every run of a proposal is listed: one run without data files ends the command. *)
Theorem C76_empty_run_refuted : exists (E : env (V := Z)) p, e_isdir E (path_join p "r0003") = true /\ In "r0003" (e_list E p) /\
  (exists o, summarise_run E (path_join p "r0003") "  " = (o, Ok tt)) /\
  main any_pop any_first E "/" [p] = ([LNote "prop" ProposalData; LRun "  " "r0001" 3 2 1], Err EValueError).
Proof.
  exists (ex_env [10; 11; 12]%Z), "prop". split; [vm_compute; reflexivity|]. split; [cbn; tauto|]. split; [eexists; vm_compute; reflexivity|]. vm_compute. reflexivity.
Qed.
Print Assumptions C76_empty_run_refuted.

(** A file alone: its trains, and for a file of a detector module the size of images and numbers of frames (as in C74),
    for other files the sources in order. *)
Theorem C76_file : forall (V : Type) pop pick_one (E : env (V := V)) path o, describe_file pop pick_one E path = (o, Ok tt) ->
  exists b k r s g i d, file_name path b /\ four_parts b k r s g /\ info_of b k s i /\ e_h5 E path = Ok d /\
    ((detector_file b /\ exists src di x y, src = pick_one (detector_sources d) /\ detector_sources d <> [] /\ detector_info pop d src = Ok di /\ di_dims di = [x; y] /\
       o = [LName b (fn_descr i); LTrains (List.length (dc_tids d)); LPixels x y; LFrames (di_frames di) (di_total di)]) \/
     (~ detector_file b /\ o = [LName b (fn_descr i); LTrains (List.length (dc_tids d)); LInst (M_FilesMap.str_sort (dc_inst d)); LCtrl (M_FilesMap.str_sort (dc_ctrl d))])).
Proof. intros V pop pick_one E path o. exact (@describe_file_ok V pop pick_one E path o). Qed.
Print Assumptions C76_file.
(** A detector whose images have fewer than two dimensions: IndexError after the number of trains. *)
Theorem C76_file_dims : forall (V : Type) pop pick_one (E : env (V := V)) path i d s di,
  filename_info (basename path) = Ok i -> e_h5 E path = Ok d -> fn_detector i = true -> first_detector pick_one d = Ok s ->
  detector_info pop d s = Ok di -> List.length (di_dims di) <> 2%nat ->
  describe_file pop pick_one E path = ([LName (basename path) (fn_descr i); LTrains (List.length (dc_tids d))], Err EIndexError).
Proof.
  intros V pop pick_one E path i d s di H1 H2 H3 H4 H5 H6. unfold describe_file. rewrite H1. cbn. rewrite H2. cbn. rewrite H3. cbn. rewrite H4. cbn. rewrite H5. cbn.
  destruct (di_dims di) as [|x [|y [|z r]]]; try reflexivity. exfalso. now apply H6.
Qed.
Print Assumptions C76_file_dims.

Example C76_file_example : main any_pop any_first (ex_env [10; 11; 12]%Z) "/" ["prop/r0001/RAW-R0001-DA01-S00000.h5"] =
  ([LName "RAW-R0001-DA01-S00000.h5" (DText "Aggregated data"); LTrains 3; LInst []; LCtrl []], Ok 0%Z).
Proof. vm_compute. reflexivity. Qed.

(** Among several paths, a file is described if it is of a detector. *)
Theorem C76_file_line : forall (V : Type) pop pick_one (E : env (V := V)) path o, summarise_file pop pick_one E path = (o, Ok tt) ->
  exists b k r s g i d, file_name path b /\ four_parts b k r s g /\ info_of b k s i /\ e_h5 E path = Ok d /\
    detector_file b /\ exists src di, src = pick_one (detector_sources d) /\ detector_sources d <> [] /\ detector_info pop d src = Ok di /\
       o = [LName b (fn_descr i); LSumDet (List.length (dc_tids d)) (di_frames di) (di_total di)].
Proof. intros V pop pick_one E path o. exact (@summarise_file_ok V pop pick_one E path o). Qed.
Print Assumptions C76_file_line.

(** Against the claim that any other data file is summarised too: it always ends in an AttributeError. *)
Theorem C76_file_line_refuted : forall (V : Type) pop pick_one (E : env (V := V)) path b d, file_name path b ->
  (exists k r s g, four_parts b k r s g) -> ~ detector_file b -> e_h5 E path = Ok d ->
  snd (summarise_file pop pick_one E path) = Err EAttributeError.
Proof. intros V pop pick_one E path b d. exact (@summarise_file_other V pop pick_one E path b d). Qed.
Print Assumptions C76_file_line_refuted.

Example C76_file_line_example : main any_pop any_first (ex_env [10; 11; 12]%Z) "/" ["prop/r0001/RAW-R0001-DA01-S00000.h5"; "prop/r0001"] =
  ([LName "RAW-R0001-DA01-S00000.h5" (DText "Aggregated data")], Err EAttributeError).
Proof. vm_compute. reflexivity. Qed.
