(** The layout of virtual CXI files (C80). *)
From Verif Require Import Base PyStr M_Files M_Machinery M_Reader M_Select M_Components M_Cxi M_CxiFile S_Reader S_Coll S_Components S_Cxi S_CxiFile
  L_Base L_CxiFile P_Stacking P_Components P_Cxi.
Set Implicit Arguments.
Local Open Scope string_scope.
Local Open Scope list_scope.

(** The file is written whenever its contents can be determined. *)
Theorem C80_written : forall (V : Type) (pulse : V -> Z) (m : mpx V) shape,
  (exists c, write_virtual_cxi pulse m shape = Ok c) <-> (exists file, write_cxi_file pulse m shape = Ok file).
Proof.
  intros V pulse m shape. split.
  - intros (c & H). destruct (cxi_parts H) as (ld & rest & lc & HL & _ & HR & _). exists (the_file (cxi_nframes m) c ld lc rest).
    unfold write_cxi_file. rewrite H. cbn [bind]. exact (tree_eq (cxi_nframes m) HL HR).
  - intros (file & H). unfold write_cxi_file in H. apply bind_ok in H as (c & H & _). eauto.
Qed.
Print Assumptions C80_written.

(** What is where: identifiers, trains and pulses of the frames, module numbers, and the virtual datasets. *)
Theorem C80_contents : forall (V : Type) (pulse : V -> Z) tag (d : dcoll V) nmo modules min m shape c file,
  detector_of tag d nmo modules min m -> write_virtual_cxi pulse m shape = Ok c -> write_cxi_file pulse m shape = Ok file ->
  let n := (Z.of_nat (List.length (mx_train_ids m)) * mx_fpt m)%Z in
  object file ["cxi_version"] (Dataset [1%Z] None (CNumbers [150%Z])) /\
  object file ["entry_1"; "experiment_identifier"] (Dataset [n] None (CTexts (cx_experiment_id c))) /\
  object file ["entry_1"; "pulseId"] (Dataset [n] None (CNumbers (cx_pulse_id c))) /\
  object file ["entry_1"; "trainId"] (Dataset [n] None (CNumbers (cx_train_id c))) /\
  object file ["entry_1"; "instrument_1"; "detector_1"; "module_identifier"]
    (Dataset [Z.of_nat (List.length (cx_module_id c))] None (CNumbers (cx_module_id c))) /\
  (forall nm ly, In (nm, ly) (cx_layouts_of c) -> exists axes,
     object file (if String.eqb nm "cellId" then ["entry_1"; nm] else ["entry_1"; "instrument_1"; "detector_1"; nm])
       (Dataset (n :: 16%Z :: ly_item ly) (Some axes) (CVirtual ly))) /\
  (** The usual place of the data leads to the same. *)
  (forall p o, object file (["entry_1"; "data_1"] ++ p) o <-> object file (["entry_1"; "instrument_1"; "detector_1"] ++ p) o).
Proof.
  intros V pulse tag d nmo modules min m shape c file HD Hc Hf n. destruct (cxi_parts Hc) as (ld & rest & lc & HL & HC & HR & HG).
  unfold write_cxi_file in Hf. rewrite Hc in Hf. cbn [bind] in Hf. rewrite (tree_eq (cxi_nframes m) HL HR) in Hf. injection Hf as <-.
  destruct (cxi_lengths HD Hc) as (L1 & L2 & L3).
  split. { unfold object. unfold the_file at 2. eapply leads_member; [reflexivity|]. apply ds_here. }
  split. { apply entry_ds. unfold entry_members. rewrite L1. reflexivity. }
  split. { apply entry_ds. unfold entry_members. rewrite L2. reflexivity. }
  split. { apply entry_ds. unfold entry_members. rewrite L3. reflexivity. }
  split. { apply (@det_ds V (cxi_nframes m) c ld lc rest). unfold det_members.
    destruct HR as [->|[(lg & -> & _)|(lg & lm & -> & _ & _)]]; destruct (cx_data_gain c); reflexivity. }
  split; [|exact (@data_1 V (cxi_nframes m) c ld lc rest)].
  intros nm ly Hin. destruct (String.eqb_spec nm "cellId") as [->|N].
  - eexists. apply entry_ds. rewrite entry_cell. unfold virtual.
    destruct (@in_layouts V c ld lc rest HL _ _ Hin) as [[_ ->]|[[X _]|X]]; [reflexivity|discriminate X|].
    apply (rest_names HL HR) in X as [[X|X] _]; discriminate X.
  - exists (axes_of c). apply (@det_ds V (cxi_nframes m) c ld lc rest). exact (@det_virtual V (cxi_nframes m) c ld lc rest HL HR _ _ Hin N).
Qed.
Print Assumptions C80_contents.

(** The attribute 'axes' of a dataset names all its dimensions, and next to the dataset there is an array with the labels of
    each named axis (other than y and x) which has the length of that dimension; the labels of the modules can be fewer than 16. *)
Theorem C80_axes : forall (V : Type) (pulse : V -> Z) tag (d : dcoll V) nmo modules min m shape c file path sh axes ct,
  detector_of tag d nmo modules min m -> write_virtual_cxi pulse m shape = Ok c -> write_cxi_file pulse m shape = Ok file ->
  (forall ly, In ("data", ly) (cx_layouts_of c) -> Forall (Z.le 0) (ly_item ly) /\ (List.length (ly_item ly) = 2 \/ List.length (ly_item ly) = 3)%nat) ->
  object file path (Dataset sh (Some axes) ct) -> path <> ["entry_1"; "cellId"] ->
  exists names, axes_names axes names /\ List.length names = List.length sh /\
    (forall k name n, nth_error names k = Some name -> nth_error sh k = Some n -> name <> "y" -> name <> "x" ->
       exists l labels, object file (removelast path ++ [name]) (Dataset [l] None labels) /\ (l = n \/ (name = "module_identifier" /\ n = 16%Z))) /\
    (forall k, nth_error names k = Some "y" -> k = (List.length sh - 2)%nat) /\ (forall k, nth_error names k = Some "x" -> k = (List.length sh - 1)%nat).
Proof.
  intros V pulse tag d nmo modules min m shape c file path sh axes ct HD Hc Hf Hrank Ho Hpath.
  destruct (cxi_parts Hc) as (ld & rest & lc & HL & HC & HR & HG).
  unfold write_cxi_file in Hf. rewrite Hc in Hf. cbn [bind] in Hf. rewrite (tree_eq (cxi_nframes m) HL HR) in Hf. injection Hf as <-.
  destruct (cxi_lengths HD Hc) as (L1 & L2 & L3).
  destruct (@all_axes V (cxi_nframes m) c ld lc rest HL HR path sh axes ct Ho) as [[E _]|(nm & ly & P & N & I & E)]; [congruence|].
  unfold virtual in E. injection E as -> -> ->.
  assert (IT : ly_item ly = ly_item ld).
  { destruct (@in_layouts V c ld lc rest HL _ _ I) as [[X _]|[[_ ->]|X]]; [congruence|reflexivity|]. now apply (rest_names HL HR) in X as [_ X]. }
  rewrite IT. clear IT. destruct (Hrank ld) as [R0 R1]; [rewrite HL; now left|]. clear Hrank.
  (* the labels next to the data *)
  assert (SIB : forall x o, object (the_file (cxi_nframes m) c ld lc rest) (det_path ++ [x]) o -> object (the_file (cxi_nframes m) c ld lc rest) (removelast path ++ [x]) o).
  { intros x o H. destruct P as [->| ->]; rewrite removelast_last; [exact H|]. now apply (@data_1 V (cxi_nframes m) c ld lc rest). }
  assert (EXP : object (the_file (cxi_nframes m) c ld lc rest) (removelast path ++ ["experiment_identifier"]) (Dataset [cxi_nframes m] None (CTexts (cx_experiment_id c)))).
  { apply SIB. eapply (@det_link V (cxi_nframes m) c ld lc rest).
    - unfold det_members. destruct HR as [->|[(lg & -> & _)|(lg & lm & -> & _ & _)]]; destruct (cx_data_gain c); reflexivity.
    - unfold entry_members. rewrite L1. reflexivity. }
  assert (MOD : object (the_file (cxi_nframes m) c ld lc rest) (removelast path ++ ["module_identifier"]) (Dataset [len (cx_module_id c)] None (CNumbers (cx_module_id c)))).
  { apply SIB. apply (@det_ds V (cxi_nframes m) c ld lc rest). unfold det_members.
    destruct HR as [->|[(lg & -> & _)|(lg & lm & -> & _ & _)]]; destruct (cx_data_gain c); reflexivity. }
  destruct names_ok as (N4 & N5 & _). unfold axes_of.
  destruct (ly_item ld) as [|a [|b [|g r]]]; cbn [List.length data_gain] in *; try (exfalso; lia); injection HG as HG.
  - rewrite <- HG. exists names4. split; [exact N4|]. split; [reflexivity|]. split; [|split].
    + intros [|[|[|[|k]]]] name n; cbn; intros Hn Hs Y X; try (destruct k; discriminate); injection Hn as <-; injection Hs as <-; try congruence.
      * do 2 eexists. split; [exact EXP|]. now left.
      * do 2 eexists. split; [exact MOD|]. now right.
    + intros [|[|[|[|k]]]]; cbn; intros H; try discriminate; [reflexivity|destruct k; discriminate].
    + intros [|[|[|[|k]]]]; cbn; intros H; try discriminate; [reflexivity|destruct k; discriminate].
  - destruct r; [|cbn in R1; exfalso; lia].
    assert (DG : object (the_file (cxi_nframes m) c ld lc rest) (removelast path ++ ["data_gain"])
        (Dataset [a] None (CTexts (if (a =? 2)%Z then ["data"; "gain"] else repeat "data" (Z.to_nat a))))).
    { apply SIB. eapply (@det_link V (cxi_nframes m) c ld lc rest).
      - unfold det_members. rewrite <- HG. reflexivity.
      - unfold entry_members. rewrite <- HG. cbn [app dict_get String.eqb Ascii.eqb Bool.eqb]. do 3 f_equal. inversion R0; subst.
        destruct (Z.eqb_spec a 2) as [->|]; [reflexivity|]. unfold len. rewrite repeat_length. f_equal. lia. }
    rewrite <- HG. exists names5. split; [exact N5|]. split; [reflexivity|]. split; [|split].
    + intros [|[|[|[|[|k]]]]] name n; cbn; intros Hn Hs Y X; try (destruct k; discriminate); injection Hn as <-; injection Hs as <-; try congruence.
      * do 2 eexists. split; [exact EXP|]. now left.
      * do 2 eexists. split; [exact MOD|]. now right.
      * do 2 eexists. split; [exact DG|]. now left.
    + intros [|[|[|[|[|k]]]]]; cbn; intros H; try discriminate; [reflexivity|destruct k; discriminate].
    + intros [|[|[|[|[|k]]]]]; cbn; intros H; try discriminate; [reflexivity|destruct k; discriminate].
Qed.
Print Assumptions C80_axes.

(** The axes of the cell IDs: 'module_identifier' names nothing next to this dataset. *)
Theorem C80_cellid_refuted : forall (V : Type) (pulse : V -> Z) (m : mpx V) shape file,
  write_cxi_file pulse m shape = Ok file ->
  (exists sh axes ct, object file ["entry_1"; "cellId"] (Dataset sh (Some axes) ct) /\ axes_names axes ["experiment_identifier"; "module_identifier"]) /\
  forall o, ~ object file ["entry_1"; "module_identifier"] o.
Proof.
  intros V pulse m shape file Hf. unfold write_cxi_file in Hf. apply bind_ok in Hf as (c & Hc & Hf).
  destruct (cxi_parts Hc) as (ld & rest & lc & HL & HC & HR & HG). rewrite (tree_eq (cxi_nframes m) HL HR) in Hf. injection Hf as <-. split.
  - do 3 eexists. split; [|exact (proj2 (proj2 names_ok))]. apply entry_ds. apply entry_cell.
  - intros o H. unfold object in H. inversion H as [|? x s r ? E1 H1|]; subst; clear H. injection E1 as <-.
    inversion H1 as [|? x s r ? E2 H2|]; subst; clear H1. unfold entry_members in E2. destruct (cx_data_gain c); discriminate E2.
Qed.
Print Assumptions C80_cellid_refuted.

Example C80_example : exists c file, detector_of "AGIPD" cxi_run None None 1 cxi_det /\
  write_virtual_cxi idZ cxi_det [512; 128]%Z = Ok c /\ write_cxi_file idZ cxi_det [512; 128]%Z = Ok file /\
  (forall ly, In ("data", ly) (cx_layouts_of c) -> Forall (Z.le 0) (ly_item ly) /\ (List.length (ly_item ly) = 2 \/ List.length (ly_item ly) = 3)%nat) /\
  exists axes ct, object file ["entry_1"; "data_1"; "data"] (Dataset [10; 16; 2; 512; 128]%Z (Some axes) ct).
Proof.
  destruct (ok_run (write_virtual_cxi idZ cxi_det [512; 128]%Z) (fun c => map (fun p => (fst p, ly_item (snd p))) (cx_layouts_of c))
    (b := [("data", [2; 512; 128]%Z); ("cellId", [])])) as (c & Hc & Hs); [vm_compute; reflexivity|].
  destruct (proj1 (C80_written idZ cxi_det [512; 128]%Z) (ex_intro _ c Hc)) as (file & Hf).
  assert (X : forall ly, In ("data", ly) (cx_layouts_of c) -> ly_item ly = [2; 512; 128]%Z).
  { intros ly H. assert (Y := in_map (fun p => (fst p, ly_item (snd p))) _ _ H). cbv beta in Y. rewrite Hs in Y. destruct Y as [Y|[Y|[]]]; [now injection Y|discriminate]. }
  exists c, file. split; [exact cxi_det_made|]. split; [exact Hc|]. split; [exact Hf|]. split.
  - intros ly H. rewrite (X ly H). split; [repeat constructor; discriminate|now right].
  - assert (N : (Z.of_nat (List.length (mx_train_ids cxi_det)) * mx_fpt cxi_det)%Z = 10%Z) by (vm_compute; reflexivity).
    destruct (@C80_contents _ _ _ _ _ _ _ _ _ _ _ cxi_det_made Hc Hf) as (_ & _ & _ & _ & _ & HV & HD). rewrite N in HV.
    assert (I : exists l, In ("data", l) (cx_layouts_of c)).
    { destruct (cx_layouts_of c) as [|[a l] r]; [discriminate Hs|]. exists l. cbn [map fst snd] in Hs. injection Hs as -> _ _. now left. }
    destruct I as (l & I). destruct (HV "data" l I) as (axes & Ho). rewrite (X l I) in Ho.
    exists axes, (CVirtual l). apply (HD ["data"] (Dataset [10; 16; 2; 512; 128]%Z (Some axes) (CVirtual l))). exact Ho.
Qed.
