(** Properties of virtual CXI files (C43, C44, C64). *)
From Verif Require Import Base PyStr M_Files M_Machinery M_Reader M_Glob M_Select M_Series M_Stacking M_Components M_Cxi
  S_Reader S_Coll S_Glob S_Avail S_Series S_Stacking S_Components S_Cxi
  L_Base L_Reader L_Select L_Components L_Series L_Check L_Check2 Ex_Files P_Series P_Stacking
  L_Components6 L_Components7 L_Components9 L_Components11 L_Components12 L_Check3 P_Components L_Cxi7.
Set Implicit Arguments.
Local Open Scope string_scope.
Local Open Scope list_scope.

(** ** C43: every frame is at its place *)
(** In a file which was written, frame [i] of the [j]th train is at position [j * frames_per_train + i], in the column of its
    module number; where there is no such frame, or no such module, there is the fill value. *)
Theorem C43_frames : forall (V : Type) (pulse : V -> Z) tag (d : dcoll V) nmo modules min m shape c nm ly,
  detector_of tag d nmo modules min m -> write_virtual_cxi pulse m shape = Ok c -> In (nm, ly) (cx_layouts_of c) ->
  (forall s n, is_module_of d (mx_name m) modules s n -> module_files d s ("image." ++ nm)) ->
  let F := Z.to_nat (mx_fpt m) in
  List.length (cx_train_id c) = (List.length (mx_train_ids m) * F)%nat /\
  forall j t i, nth_error (mx_train_ids m) j = Some t -> (i < F)%nat ->
  nth_error (cx_train_id c) (j * F + i) = Some t /\
  (forall s n v, is_module_of d (mx_name m) modules s n -> (ly_at ly (j * F + i) n = Some v <-> frame_value d s ("image." ++ nm) t i v)) /\
  (forall n, (forall s, ~ is_module_of d (mx_name m) modules s n) -> ly_at ly (j * F + i) n = None).
Proof. intros V pulse tag d nmo modules min m shape c nm ly HD H Hin HF F. split; [exact (cxi_train_length HD H)|]. exact (cxi_frames HD H Hin HF). Qed.
Print Assumptions C43_frames.
(** No frame is left out: a train has at most frames_per_train frames. *)
Theorem C43_complete : forall (V : Type) tag (d : dcoll V) nmo modules min m nm s n t i v,
  detector_of tag d nmo modules min m -> is_module_of d (mx_name m) modules s n -> module_files d s ("image." ++ nm) ->
  In t (mx_train_ids m) -> frame_value d s ("image." ++ nm) t i v -> (Z.of_nat i < mx_fpt m)%Z.
Proof. intros V tag d nmo modules min m nm s n t i v HD Hm HF Ht Hv. assert (X := cxi_frames_bound HD Hm HF Ht Hv). lia. Qed.
Print Assumptions C43_complete.
(** The virtual datasets in the file. *)
Theorem C43_names : forall (V : Type) (pulse : V -> Z) tag (d : dcoll V) nmo modules min m shape c bg bm,
  detector_of tag d nmo modules min m -> write_virtual_cxi pulse m shape = Ok c ->
  (forall s n, is_module_of d (mx_name m) modules s n -> exists f t, In t (mx_train_ids m) /\ holds d f s t) ->
  image_dataset d (mx_name m) modules "gain" bg -> image_dataset d (mx_name m) modules "mask" bm ->
  map fst (cx_layouts_of c) = "data" :: (if bg then "gain" :: (if bm then ["mask"] else []) else []) ++ ["cellId"].
Proof. intros V pulse tag d nmo modules min m shape c bg bm HD H HA Hg Hm. exact (cxi_names HD HA Hg Hm H). Qed.
Print Assumptions C43_names.
(** The mapping succeeds, for any division in files and chunks: the internal assertions hold and the loop ends. *)
Theorem C43_accepts : forall (V : Type) (pulse : V -> Z) tag (d : dcoll V) nmo modules min m shape bg bm item,
  detector_of tag d nmo modules min m -> cxi_ready pulse d m modules ->
  (forall s n, is_module_of d (mx_name m) modules s n -> exists f t, In t (mx_train_ids m) /\ holds d f s t) ->
  image_dataset d (mx_name m) modules "gain" bg -> image_dataset d (mx_name m) modules "mask" bm ->
  (forall s n, is_module_of d (mx_name m) modules s n ->
     forall nm, In nm ("data" :: (if bg then "gain" :: (if bm then ["mask"] else []) else []) ++ ["cellId"]) ->
     module_files d s ("image." ++ nm) /\ entry_size d s ("image." ++ nm) (if String.eqb nm "cellId" then 1%Z else z_prod item)) ->
  item <> [] ->
  (if bg then shape = item else forall s n f ds, is_module_of d (mx_name m) modules s n -> In f (dc_files d) -> In s (fa_sources f) ->
     dict_get (data_key false s "image.data") (h5_data (fa_file f)) = Some ds -> ds_item ds = item) ->
  (forall t i, In t (mx_train_ids m) -> (Z.of_nat i < mx_fpt m)%Z -> exists p, agreed_pulse pulse d (mx_name m) modules t i p) ->
  exists c, write_virtual_cxi pulse m shape = Ok c.
Proof.
  intros V pulse tag d nmo modules min m shape bg bm item HD HR HA Hg Hm Hd Hi Hs Hag.
  apply (@cxi_accepts V pulse tag d nmo modules min m HD shape HR HA bg bm Hg Hm item Hi Hd Hs).
  intros t i Ht Hlt. apply Hag; [assumption|]. lia.
Qed.
Print Assumptions C43_accepts.
(** The module labels: in increasing order, those of the modules of the detector.  With all 16 modules label and column
    are the same. *)
Theorem C43_labels : forall (V : Type) (pulse : V -> Z) tag (d : dcoll V) nmo modules min m shape c,
  detector_of tag d nmo modules min m -> write_virtual_cxi pulse m shape = Ok c ->
  StronglySorted Z.lt (cx_module_id c) /\ (forall n, In n (cx_module_id c) <-> exists s, is_module_of d (mx_name m) modules s n) /\
  ((forall n, (exists s, is_module_of d (mx_name m) modules s n) <-> (0 <= n < 16)%Z) ->
     forall k n, nth_error (cx_module_id c) k = Some n -> n = Z.of_nat k).
Proof.
  intros V pulse tag d nmo modules min m shape c HD H. destruct (cxi_module_ids HD H) as [M1 M2]. split; [assumption|]. split; [assumption|].
  intros H16 k n Hn.
  assert (E : cx_module_id c = map Z.of_nat (seq 0 16)).
  { apply sorted_lt_ext; [assumption|cbn; repeat constructor; lia|]. intros x. rewrite M2, H16. rewrite in_map_iff. split.
    - intros Hx. exists (Z.to_nat x). rewrite in_seq. lia.
    - intros (y & <- & Hy). apply in_seq in Hy. lia. }
  rewrite E, nth_error_map in Hn. destruct (nth_error (seq 0 16) k) as [x|] eqn:Ex; [|discriminate]. injection Hn as <-. f_equal.
  assert (Hk := nth_error_Some_lt _ _ Ex). rewrite seq_length in Hk. apply nth_error_nth with (d := 0%nat) in Ex. rewrite seq_nth in Ex by assumption. lia.
Qed.
Print Assumptions C43_labels.

(** The labels of the gain axis: none for frames of two dimensions, "data" and "gain" for an axis of length 2, and otherwise
    "data" for every entry; data without frame dimensions are refused. *)
Theorem C43_gain_labels : forall (V : Type) (pulse : V -> Z) (m : mpx V) shape c ly,
  write_virtual_cxi pulse m shape = Ok c -> dict_get "data" (cx_layouts_of c) = Some ly ->
  ly_item ly <> [] /\ (cx_data_gain c = None <-> List.length (ly_item ly) = 2%nat) /\
  forall labels n r, cx_data_gain c = Some labels -> ly_item ly = n :: r -> (0 <= n)%Z ->
    Z.of_nat (List.length labels) = n /\ (n = 2%Z -> labels = ["data"; "gain"]) /\
    (n <> 2%Z -> forall x, In x labels -> x = "data").
Proof.
  intros V pulse m shape c ly H Hly. unfold write_virtual_cxi in H. apply bind_ok in H as (ps & _ & H). apply bind_ok in H as (ls & _ & H).
  apply bind_ok in H as (dg & E & H). injection H as <-. cbn [cx_layouts_of cx_data_gain] in *. rewrite Hly in E.
  destruct (ly_item ly) as [|n [|b [|g r]]]; cbn [data_gain] in E; [discriminate| | |]; injection E as <-.
  2: { split; [discriminate|]. split; [split; reflexivity|]. discriminate. }
  all: split; [discriminate|]; split; [split; discriminate|]; intros labels n' r' Hl Hi Hn; injection Hi as <- <-; injection Hl as <-;
    destruct (Z.eqb_spec n 2) as [->|Hne]; [split; [reflexivity|]; split; [reflexivity|intros X; now destruct X]|];
    split; [rewrite repeat_length; lia|]; split; [intros X; contradiction|]; intros _ x Hx; now apply repeat_spec in Hx.
Qed.
Print Assumptions C43_gain_labels.

(** *** Examples *)
Definition cxi_file (fn n : string) (tids firsts counts pulses data : list Z) : h5file Z :=
  mk_h5 fn (Some tids) (Some "1.0") None (Some [("INSTRUMENT/" ++ mod_name n ++ "/image")%string])
    [((mod_name n ++ "/image")%string, mk_ix firsts (IxCount counts))]
    [(("INSTRUMENT/" ++ mod_name n ++ "/image/data")%string, mk_ds "u2" [2; 512; 128]%Z data); (("INSTRUMENT/" ++ mod_name n ++ "/image/pulseId")%string, mk_ds "u8" [1]%Z pulses);
     (("INSTRUMENT/" ++ mod_name n ++ "/image/cellId")%string, mk_ds "u2" [1]%Z pulses)].
(** Module 3 is in two files, without frames in train 11; train 13 is missing in its second file. *)
Definition cxi_files : list (h5file Z) :=
  [cxi_file "AGIPD00" "0" [10; 11; 12; 13; 14]%Z [0; 2; 4; 6; 8]%Z [2; 2; 2; 2; 2]%Z [0; 4; 0; 4; 0; 4; 0; 4; 0; 4]%Z [100; 101; 110; 111; 120; 121; 130; 131; 140; 141]%Z;
   cxi_file "AGIPD03a" "3" [10; 11]%Z [0; 2]%Z [2; 0]%Z [0; 4]%Z [300; 301]%Z;
   cxi_file "AGIPD03b" "3" [12; 14]%Z [0; 2]%Z [2; 2]%Z [0; 4; 0; 4]%Z [320; 321; 340; 341]%Z].
Definition cxi_run : dcoll Z := force no_coll (open_files cxi_files).
Definition cxi_det : mpx Z := force no_mpx (mpx_open "AGIPD" cxi_run None None 1).
Lemma cxi_run_reachable : reachable cxi_run.
Proof. apply (open_files_reachable cxi_files). vm_compute. reflexivity. Qed.
Example cxi_det_made : detector_of "AGIPD" cxi_run None None 1 cxi_det.
Proof.
  split; [exact cxi_run_reachable|]. split; [apply distinct_kindsb_ok; vm_compute; reflexivity|]. split; [apply good_filesb_ok; vm_compute; reflexivity|].
  split; [apply countableb_ok; vm_compute; reflexivity|]. vm_compute. reflexivity.
Qed.
Lemma cxi_good : forall k, In k ["image.data"; "image.cellId"; "image.pulseId"] -> good_modules idZ idZ cxi_run cxi_det None k.
Proof. intros k [<-|[<-|[<-|[]]]]; (apply good_modulesb_ok; [exact cxi_run_reachable|vm_compute; reflexivity]). Qed.
Lemma limited_small : forall (V : Type) (first : V -> V) (pulse : V -> Z) (d : dcoll V) s, pulses_limited first pulse d s "image.pulseId" -> small_pulses pulse d s.
Proof.
  intros V first pulse d s H t i p (v & (f & rows & Hh & Hr & Hv) & ->).
  assert (Hr' := Hr). destruct Hr' as (raw & q & g & a & c & ds & _ & _ & _ & _ & _ & _ & Hds & _).
  destruct (H f t (map pulse rows) (map (frame_of first ds) rows) Hh) as [H1 _].
  { exists rows, rows, ds. auto. }
  rewrite Forall_forall in H1. specialize (H1 (pulse v) (in_map _ _ _ (nth_error_In _ _ Hv))). unfold MAX_PULSES, NO_PULSE_ID in *. lia.
Qed.
(** Boolean check of agreement. *)
Definition show_cxi (c : cxi Z) := (cx_experiment_id c, cx_pulse_id c, cx_train_id c, cx_module_id c, cx_data_gain c,
   map (fun p => (fst p, map (fun fr => (ly_at (snd p) fr 0%Z, ly_at (snd p) fr 1%Z, ly_at (snd p) fr 3%Z)) (seq 0 10))) (cx_layouts_of c)).
Example C43_example : exists c, write_virtual_cxi idZ cxi_det [512; 128]%Z = Ok c /\ show_cxi c =
  (["10:0"; "10:4"; "11:0"; "11:4"; "12:0"; "12:4"; "13:0"; "13:4"; "14:0"; "14:4"], [0; 4; 0; 4; 0; 4; 0; 4; 0; 4]%Z,
   [10; 10; 11; 11; 12; 12; 13; 13; 14; 14]%Z, [0; 3]%Z, Some ["data"; "gain"],
   [("data", [(Some 100, None, Some 300); (Some 101, None, Some 301); (Some 110, None, None); (Some 111, None, None); (Some 120, None, Some 320);
              (Some 121, None, Some 321); (Some 130, None, None); (Some 131, None, None); (Some 140, None, Some 340); (Some 141, None, Some 341)]%Z);
    ("cellId", [(Some 0, None, Some 0); (Some 4, None, Some 4); (Some 0, None, None); (Some 4, None, None); (Some 0, None, Some 0);
              (Some 4, None, Some 4); (Some 0, None, None); (Some 4, None, None); (Some 0, None, Some 0); (Some 4, None, Some 4)]%Z)]).
Proof. apply ok_run. vm_compute. reflexivity. Qed.
(** The conditions of C43_accepts hold for this run. *)
Example cxi_det_ready : cxi_ready idZ cxi_run cxi_det None.
Proof.
  intros s n Hm. assert (Hg := cxi_good (k := "image.pulseId") ltac:(cbn; auto)). destruct (Hg s n Hm) as [G1 G2].
  split; [|split; [assumption|exact (limited_small G2)]]. apply module_list_In in Hm. vm_compute in Hm. destruct Hm as [E|[E|[]]]; injection E as _ <-; reflexivity.
Qed.
(** All the conditions of C43_accepts hold for this run. *)
Lemma cxi_cases : forall s n f, is_module_of cxi_run (mx_name cxi_det) None s n -> In f (dc_files cxi_run) -> In s (fa_sources f) ->
  In (s, h5_data (fa_file f)) (flat_map (fun f => map (fun s => (s, h5_data (fa_file f))) (fa_sources f)) (dc_files cxi_run)).
Proof. intros s n f _ Hf Hs. apply in_flat_map. exists f. split; [assumption|]. now apply (in_map (fun s => (s, h5_data (fa_file f)))). Qed.
Example C43_accepts_example :
  (forall s n, is_module_of cxi_run (mx_name cxi_det) None s n -> exists f t, In t (mx_train_ids cxi_det) /\ holds cxi_run f s t) /\
  image_dataset cxi_run (mx_name cxi_det) None "gain" false /\ image_dataset cxi_run (mx_name cxi_det) None "mask" false /\
  (forall s n, is_module_of cxi_run (mx_name cxi_det) None s n -> forall nm, In nm ["data"; "cellId"] ->
     module_files cxi_run s ("image." ++ nm) /\ entry_size cxi_run s ("image." ++ nm) (if String.eqb nm "cellId" then 1%Z else z_prod [2; 512; 128]%Z)) /\
  (forall s n f ds, is_module_of cxi_run (mx_name cxi_det) None s n -> In f (dc_files cxi_run) -> In s (fa_sources f) ->
     dict_get (data_key false s "image.data") (h5_data (fa_file f)) = Some ds -> ds_item ds = [2; 512; 128]%Z) /\
  (forall t i, In t (mx_train_ids cxi_det) -> (Z.of_nat i < mx_fpt cxi_det)%Z -> exists p, agreed_pulse idZ cxi_run (mx_name cxi_det) None t i p).
Proof.
  assert (HC : forall s n f, is_module_of cxi_run (mx_name cxi_det) None s n -> In f (dc_files cxi_run) -> In s (fa_sources f) ->
     (forall nm, In nm ["gain"; "mask"] -> dict_get (data_key false s ("image." ++ nm)) (h5_data (fa_file f)) = None) /\
     (forall ds, dict_get (data_key false s "image.data") (h5_data (fa_file f)) = Some ds -> ds_item ds = [2; 512; 128]%Z) /\
     (forall ds, dict_get (data_key false s "image.cellId") (h5_data (fa_file f)) = Some ds -> ds_item ds = [1]%Z)).
  { intros s n f Hm Hf Hs. assert (H := cxi_cases Hm Hf Hs). clear Hm Hf Hs. remember (h5_data (fa_file f)) as data eqn:Ed. clear Ed f n.
    vm_compute in H. destruct H as [E|[E|[E|[]]]]; injection E as <- <-;
      (split; [intros nm [<-|[<-|[]]]; reflexivity|]; split; intros ds H; vm_compute in H; injection H as <-; reflexivity). }
  split; [|split; [|split; [|split; [|split]]]].
  - intros s n Hm. apply module_list_In in Hm. vm_compute in Hm. destruct Hm as [E|[E|[]]]; injection E as <- _.
    + exists (nth 0 (dc_files cxi_run) (mk_fa file1 [] [] [])), 10%Z. split; [vm_compute; auto|]. repeat split; vm_compute; auto.
    + exists (nth 1 (dc_files cxi_run) (mk_fa file1 [] [] [])), 10%Z. split; [vm_compute; auto|]. repeat split; vm_compute; auto.
  - intros s n f Hm Hf Hs. destruct (HC s n f Hm Hf Hs) as [H _]. split; [|discriminate]. intros (ds & Hds). rewrite (H "gain") in Hds; [discriminate|cbn; auto].
  - intros s n f Hm Hf Hs. destruct (HC s n f Hm Hf Hs) as [H _]. split; [|discriminate]. intros (ds & Hds). rewrite (H "mask") in Hds; [discriminate|cbn; auto].
  - intros s n Hm nm Hn. split.
    + destruct Hn as [<-|[<-|[]]]; [apply (cxi_good (k := "image.data") ltac:(cbn; auto) Hm)|apply (cxi_good (k := "image.cellId") ltac:(cbn; auto) Hm)].
    + intros f ds Hf Hs Hds. destruct (HC s n f Hm Hf Hs) as (_ & H1 & H2). destruct Hn as [<-|[<-|[]]]; [rewrite (H1 ds Hds)|rewrite (H2 ds Hds)]; reflexivity.
  - intros s n f ds Hm Hf Hs. apply (HC s n f Hm Hf Hs).
  - intros t i Ht Hi. destruct C43_example as (c & Hc & _). destruct (cxi_pulses cxi_det_made cxi_det_ready Hc) as [_ H].
    apply In_nth_error in Ht as (j & Hj). destruct (H j t i Hj) as (p & _ & Hp); [lia|]. now exists p.
Qed.
(** The label at position k does not name the module in column k when modules are missing. *)
Theorem C43_labels_refuted : exists tag (d : dcoll Z) modules m c ly k n fr v,
  detector_of tag d None modules 1 m /\ write_virtual_cxi idZ m [512; 128]%Z = Ok c /\ In ("data", ly) (cx_layouts_of c) /\
  nth_error (cx_module_id c) k = Some n /\ ly_at ly fr n = Some v /\ ly_at ly fr (Z.of_nat k) = None.
Proof.
  destruct (ok_run (write_virtual_cxi idZ cxi_det [512; 128]%Z)
    (fun c => match cx_layouts_of c with (a, l) :: _ => (a, ly_at l 0%nat 3%Z, ly_at l 0%nat 1%Z, cx_module_id c) | [] => ("", None, None, []) end)
    (b := ("data", Some 300%Z, None, [0; 3]%Z))) as (c & H1 & H2); [vm_compute; reflexivity|].
  destruct (cx_layouts_of c) as [|[a l] r] eqn:E; [discriminate|]. injection H2 as -> L1 L2 L3.
  exists "AGIPD", cxi_run, None, cxi_det, c, l, 1%nat, 3%Z, 0%nat, 300%Z. split; [exact cxi_det_made|]. split; [exact H1|].
  split; [rewrite E; now left|]. split; [now rewrite L3|]. split; assumption.
Qed.
Print Assumptions C43_labels_refuted.

(** ** C44: pulse IDs *)
(** The pulse IDs written are those on which all modules having the frame agree. *)
Theorem C44_pulses : forall (V : Type) (pulse : V -> Z) tag (d : dcoll V) nmo modules min m shape c,
  detector_of tag d nmo modules min m -> cxi_ready pulse d m modules -> write_virtual_cxi pulse m shape = Ok c ->
  let F := Z.to_nat (mx_fpt m) in
  List.length (cx_pulse_id c) = (List.length (mx_train_ids m) * F)%nat /\
  forall j t i, nth_error (mx_train_ids m) j = Some t -> (i < F)%nat ->
    exists p, nth_error (cx_pulse_id c) (j * F + i) = Some p /\ agreed_pulse pulse d (mx_name m) modules t i p.
Proof. intros V pulse tag d nmo modules min m shape c HD HR H F. exact (cxi_pulses HD HR H). Qed.
Print Assumptions C44_pulses.
(** A frame in no module, or with different pulse IDs in two modules: an exception, and no file. *)
Theorem C44_refuses : forall (V : Type) (pulse : V -> Z) tag (d : dcoll V) nmo modules min m shape t i,
  detector_of tag d nmo modules min m -> cxi_ready pulse d m modules -> In t (mx_train_ids m) -> (Z.of_nat i < mx_fpt m)%Z ->
  ((forall s n p, is_module_of d (mx_name m) modules s n -> ~ frame_pulse pulse d s t i p) \/
   (exists s n p s' n' p', is_module_of d (mx_name m) modules s n /\ frame_pulse pulse d s t i p /\
      is_module_of d (mx_name m) modules s' n' /\ frame_pulse pulse d s' t i p' /\ p <> p')) ->
  write_virtual_cxi pulse m shape = Err EException.
Proof.
  intros V pulse tag d nmo modules min m shape t i HD HR Ht Hi H. apply (@cxi_refuses V pulse tag d nmo modules min m HD shape HR t i Ht); [lia|].
  intros p [(s & n & Hm & Hp) Ha]. destruct H as [H|(s1 & n1 & p1 & s2 & n2 & p2 & M1 & P1 & M2 & P2 & Hne)].
  - exact (H s n p Hm Hp).
  - apply Hne. rewrite (Ha s1 n1 p1 M1 P1), (Ha s2 n2 p2 M2 P2). reflexivity.
Qed.
Print Assumptions C44_refuses.
(** Files for the two cases, and for the mark of a missing frame, 9999. *)
Definition cxi_run_of (l : list (h5file Z)) : dcoll Z := force no_coll (open_files l).
Definition cxi_det_of (l : list (h5file Z)) (min : Z) : mpx Z := force no_mpx (mpx_open "AGIPD" (cxi_run_of l) None None min).
Definition disagree_files : list (h5file Z) :=
  [cxi_file "AGIPD00" "0" [10]%Z [0]%Z [2]%Z [0; 4]%Z [100; 101]%Z; cxi_file "AGIPD03" "3" [10]%Z [0]%Z [2]%Z [0; 8]%Z [300; 301]%Z].
Definition nowhere_files : list (h5file Z) :=
  [cxi_file "AGIPD00" "0" [10; 11]%Z [0; 2]%Z [2; 0]%Z [0; 4]%Z [100; 101]%Z; cxi_file "AGIPD03" "3" [10; 11]%Z [0; 2]%Z [2; 0]%Z [0; 4]%Z [300; 301]%Z].
Definition marked_files : list (h5file Z) := [cxi_file "AGIPD00" "0" [10]%Z [0]%Z [2]%Z [0; 9999]%Z [100; 101]%Z].
Definition run_checks (l : list (h5file Z)) (min : Z) : bool :=
  distinct_kindsb (cxi_run_of l) && good_filesb (cxi_run_of l) && countableb (cxi_run_of l) (mx_name (cxi_det_of l min)) None &&
  match open_files l with Ok _ => match mpx_open "AGIPD" (cxi_run_of l) None None min with Ok _ => true | Err _ => false end | Err _ => false end.
Lemma run_checks_ok : forall l min, run_checks l min = true -> detector_of "AGIPD" (cxi_run_of l) None None min (cxi_det_of l min).
Proof.
  intros l min H. unfold run_checks in H. apply andb_true_iff in H as [H H4]. apply andb_true_iff in H as [H H3]. apply andb_true_iff in H as [H1 H2].
  destruct (open_files l) as [d|] eqn:E; [|discriminate].
  split; [|split; [now apply distinct_kindsb_ok|split; [now apply good_filesb_ok|split; [now apply countableb_ok|]]]].
  - apply (open_files_reachable l). unfold cxi_run_of. now rewrite E.
  - unfold cxi_det_of. destruct (mpx_open _ _ _ _ _); [reflexivity|discriminate].
Qed.
Lemma frame_pulse_of : forall (d : dcoll Z) f s t i rows p, holds d f s t -> rows_of (fa_file f) false s "image.pulseId" t = Some rows -> nth_error rows i = Some p ->
  frame_pulse idZ d s t i p.
Proof. intros d f s t i rows p H1 H2 H3. exists p. split; [|reflexivity]. exists f, rows. split; [assumption|]. split; [now apply rows_of_spec|assumption]. Qed.
Lemma ready_of : forall l min, reachable (cxi_run_of l) -> good_modulesb idZ (cxi_run_of l) (cxi_det_of l min) None "image.pulseId" = true ->
  forallb (fun p => snd p <? 16)%Z (module_list (cxi_run_of l) (mx_name (cxi_det_of l min)) None) = true -> cxi_ready idZ (cxi_run_of l) (cxi_det_of l min) None.
Proof.
  intros l min R H1 H2 s n Hm. destruct (good_modulesb_ok idZ R H1 Hm) as [G1 G2]. split; [|split; [assumption|exact (limited_small G2)]].
  apply module_list_In in Hm. rewrite forallb_forall in H2. specialize (H2 _ Hm). cbn in H2. unfold n_modules. lia.
Qed.
(** Two modules with different pulse IDs. *)
Example C44_example_disagree : detector_of "AGIPD" (cxi_run_of disagree_files) None None 1 (cxi_det_of disagree_files 1) /\
  cxi_ready idZ (cxi_run_of disagree_files) (cxi_det_of disagree_files 1) None /\
  (exists s s' : string, frame_pulse idZ (cxi_run_of disagree_files) s 10 1 4 /\ frame_pulse idZ (cxi_run_of disagree_files) s' 10 1 8) /\
  write_virtual_cxi idZ (cxi_det_of disagree_files 1) [] = Err EException.
Proof.
  assert (HD : detector_of "AGIPD" (cxi_run_of disagree_files) None None 1 (cxi_det_of disagree_files 1)) by (apply run_checks_ok; vm_compute; reflexivity).
  split; [exact HD|]. split; [apply ready_of; [exact (proj1 HD)| |]; vm_compute; reflexivity|]. split; [|vm_compute; reflexivity].
  exists (mod_name "0"), (mod_name "3"). split.
  - eapply frame_pulse_of with (f := nth 0 (dc_files (cxi_run_of disagree_files)) (hd (mk_fa (hd file1 disagree_files) [] [] []) [])); [| vm_compute; reflexivity | reflexivity].
    repeat split; vm_compute; auto.
  - eapply frame_pulse_of with (f := nth 1 (dc_files (cxi_run_of disagree_files)) (hd (mk_fa (hd file1 disagree_files) [] [] []) [])); [| vm_compute; reflexivity | reflexivity].
    repeat split; vm_compute; auto.
Qed.
(** With min_modules = 0 a train without frames is kept: its frames are in no module. *)
Example C44_example_nowhere : detector_of "AGIPD" (cxi_run_of nowhere_files) None None 0 (cxi_det_of nowhere_files 0) /\
  cxi_ready idZ (cxi_run_of nowhere_files) (cxi_det_of nowhere_files 0) None /\ In 11%Z (mx_train_ids (cxi_det_of nowhere_files 0)) /\
  write_virtual_cxi idZ (cxi_det_of nowhere_files 0) [] = Err EException.
Proof.
  assert (HD : detector_of "AGIPD" (cxi_run_of nowhere_files) None None 0 (cxi_det_of nowhere_files 0)) by (apply run_checks_ok; vm_compute; reflexivity).
  split; [exact HD|]. split; [apply ready_of; [exact (proj1 HD)| |]; vm_compute; reflexivity|]. split; [vm_compute; auto|vm_compute; reflexivity].
Qed.
(** A frame whose pulse ID is 9999 is taken for missing: the file is refused although there is no disagreement. *)
Theorem C44_marker_refuted : exists (d : dcoll Z) m, detector_of "AGIPD" d None None 1 m /\
  (forall t i, In t (mx_train_ids m) -> (i < Z.to_nat (mx_fpt m))%nat -> exists p, agreed_pulse idZ d (mx_name m) None t i p) /\
  write_virtual_cxi idZ m [] = Err EException.
Proof.
  exists (cxi_run_of marked_files), (cxi_det_of marked_files 1).
  assert (HD : detector_of "AGIPD" (cxi_run_of marked_files) None None 1 (cxi_det_of marked_files 1)) by (apply run_checks_ok; vm_compute; reflexivity).
  split; [exact HD|]. split; [|vm_compute; reflexivity].
  intros t i Ht Hi.
  assert (Hrows : forall s n p, is_module_of (cxi_run_of marked_files) (mx_name (cxi_det_of marked_files 1)) None s n -> frame_pulse idZ (cxi_run_of marked_files) s t i p ->
     nth_error [0; 9999]%Z i = Some p).
  { intros s n p Hm (v & (f & rows & (Hf & Hs & Htf) & Hr & Hv) & ->).
    assert (Ef : dc_files (cxi_run_of marked_files) = [nth 0 (dc_files (cxi_run_of marked_files)) (mk_fa file1 [] [] [])]) by (vm_compute; reflexivity).
    rewrite Ef in Hf. destruct Hf as [<-|[]].
    apply module_list_In in Hm. vm_compute in Hm. destruct Hm as [E|[]]. injection E as <- _.
    assert (Et : t = 10%Z) by (vm_compute in Ht; destruct Ht as [<-|[]]; reflexivity). subst t.
    assert (Hr2 : file_rows (fa_file (nth 0 (dc_files (cxi_run_of marked_files)) (mk_fa file1 [] [] []))) false (mod_name "0") "image.pulseId" 10 [0; 9999]%Z) by (apply rows_of_spec; vm_compute; reflexivity).
    assert (Er := L_Trains.file_rows_fun Hr2 Hr). rewrite Er. exact Hv. }
  assert (Hex : exists p, nth_error [0; 9999]%Z i = Some p).
  { assert (Hi2 : (i < 2)%nat) by exact Hi. destruct i as [|[|i]]; [eexists; reflexivity|eexists; reflexivity|lia]. }
  destruct Hex as (p & Hp). exists p. split.
  - exists (mod_name "0"), 0%Z. split; [apply module_list_In; vm_compute; auto|].
    assert (Et : t = 10%Z) by (vm_compute in Ht; destruct Ht as [<-|[]]; reflexivity). subst t.
    eapply frame_pulse_of with (f := nth 0 (dc_files (cxi_run_of marked_files)) (mk_fa file1 [] [] [])) (rows := [0; 9999]%Z); [|vm_compute; reflexivity|exact Hp].
    repeat split; vm_compute; auto.
  - intros s n q Hm Hq. specialize (Hrows s n q Hm Hq). congruence.
Qed.
Print Assumptions C44_marker_refuted.

(** ** C64: identifiers of frames *)
(** The identifier of a frame is its train ID and pulse ID in decimal notation, with a colon between. *)
Theorem C64_identifiers : forall (V : Type) (pulse : V -> Z) tag (d : dcoll V) nmo modules min m shape c,
  detector_of tag d nmo modules min m -> cxi_ready pulse d m modules -> write_virtual_cxi pulse m shape = Ok c ->
  (forall t, In t (mx_train_ids m) -> (0 <= t)%Z) ->
  let F := Z.to_nat (mx_fpt m) in
  List.length (cx_experiment_id c) = (List.length (mx_train_ids m) * F)%nat /\
  forall j t i p, nth_error (mx_train_ids m) j = Some t -> (i < F)%nat -> nth_error (cx_pulse_id c) (j * F + i) = Some p ->
    exists a b, nth_error (cx_experiment_id c) (j * F + i) = Some (a ++ ":" ++ b)%string /\
      all_digits a /\ a <> "" /\ decimal a = t /\ all_digits b /\ b <> "" /\ decimal b = p.
Proof. intros V pulse tag d nmo modules min m shape c HD HR H H0 F. exact (cxi_ids HD HR H H0). Qed.
Print Assumptions C64_identifiers.
(** Frames with the same identifier have the same train and pulse ID. *)
Theorem C64_unique : forall (V : Type) (pulse : V -> Z) tag (d : dcoll V) nmo modules min m shape c x y id t t' p p',
  detector_of tag d nmo modules min m -> cxi_ready pulse d m modules -> write_virtual_cxi pulse m shape = Ok c ->
  (forall t, In t (mx_train_ids m) -> (0 <= t)%Z) ->
  nth_error (cx_experiment_id c) x = Some id -> nth_error (cx_experiment_id c) y = Some id ->
  nth_error (cx_train_id c) x = Some t -> nth_error (cx_train_id c) y = Some t' ->
  nth_error (cx_pulse_id c) x = Some p -> nth_error (cx_pulse_id c) y = Some p' -> t = t' /\ p = p'.
Proof. intros V pulse tag d nmo modules min m shape c x y id t t' p p' HD HR H H0 X1 Y1. exact (cxi_ids_unique HD HR H H0 X1 Y1 (p := p) (p' := p')). Qed.
Print Assumptions C64_unique.
