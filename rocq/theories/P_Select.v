(** Property theorems: selecting sources and keys, unions (C12-C18, C60). *)
From Verif Require Import Base PyStr M_Files M_Machinery M_Reader M_Glob M_Select S_Reader S_Coll S_Glob S_Select S_Avail S_Hist
  L_Base L_Machinery L_Reader L_GetArray L_Select L_Trains L_SelTrains L_Array2 L_Glob L_Sel2 L_Sel3 L_Hist L_Union L_Check Ex_Files.
Local Open Scope string_scope.
Local Open Scope list_scope.

(** The keys of every source in a collection, for the examples. *)
Definition content {V} (d : dcoll V) : list (string * list string) :=
  map (fun s => (s, force [] (keys_for_source d s))) (dc_sources d).

Definition valid_patternb (p : string) : bool := match glob_compile p with Ok _ => true | Err _ => false end.
Lemma valid_patternb_ok : forall p, valid_patternb p = true -> valid_pattern p.
Proof.
  intros p H. apply glob_compile_iff. unfold valid_patternb in H. destruct (glob_compile p); [eauto|discriminate].
Qed.

(** ** C12 *)
Theorem C12_select_globs : forall (V : Type) (d : dcoll V) L, reachable d -> Forall valid_pair L ->
  ((exists p, In p L /\ forall s, ~ hits_source d p s) -> select d (SelGlobs L) = Err EValueError) /\
  ((forall p, In p L -> exists s, hits_source d p s) -> exists d', select d (SelGlobs L) = Ok d' /\
     dc_tids d' = dc_tids d /\
     (forall s, In s (dc_sources d') <-> exists p, In p L /\ hits_source d p s) /\
     (forall s k, (exists p, In p L /\ snd p = "*" /\ glob (fst p) s) ->
        (available d' s k <-> In s (dc_sources d) /\ stored_key d s k)) /\
     (forall s k, ~ (exists p, In p L /\ snd p = "*" /\ glob (fst p) s) ->
        (available d' s k <-> available d s k /\ exists p, In p L /\ hits d p s k))).
Proof. exact @select_globs_spec. Qed.
Print Assumptions C12_select_globs.
(** On opened files all keys are available, and there the rule is simply: a key is
    selected when some pair of patterns matches it. *)
Theorem C12_select_globs_opened : forall (V : Type) (files : list (faccess V)) d L,
  Forall (fun f => fa_open (fa_file f) = Ok f) files -> mk_collection files None None = Ok d ->
  Forall valid_pair L -> (forall p, In p L -> exists s, hits_source d p s) ->
  exists d', select d (SelGlobs L) = Ok d' /\
    forall s k, available d' s k <-> available d s k /\ exists p, In p L /\ hits d p s k.
Proof.
  intros V files d L HF Hd HV HL. assert (R : reachable d) by (eapply reach_open; eassumption).
  destruct (select_globs_spec R HV) as [_ S2]. destruct (S2 HL) as (d' & E & _ & _ & K1 & K2).
  exists d'. split; [assumption|]. intros s k.
  assert (D : (exists p, In p L /\ snd p = "*" /\ glob (fst p) s) \/ ~ (exists p, In p L /\ snd p = "*" /\ glob (fst p) s)).
  { clear -HV. induction L as [|p L IH]; [right; intros (p & [] & _)|].
    inversion HV as [|? ? Hp HL]; subst. destruct (IH HL) as [H|H]; [left; destruct H as (q & Hq & H); exists q; split; [now right|exact H]|].
    destruct (string_dec (snd p) "*") as [Es|Es].
    - destruct (valid_compiles (proj1 Hp)) as [ts Hts]. destruct (glob_match ts s) eqn:Em.
      + left. exists p. split; [now left|]. split; [assumption|]. now apply (glob_compile_spec s Hts).
      + right. intros (q & [<-|Hq] & H1 & H2); [|apply H; eauto]. apply (glob_compile_spec s Hts) in H2. congruence.
    - right. intros (q & [<-|Hq] & H1 & H2); [congruence|apply H; eauto]. }
  destruct D as [D|D].
  - rewrite (K1 s k D). rewrite <- (open_available s k Hd). split.
    + intros [H1 H2]. split; [assumption|]. destruct D as (p & Hp & Es & Hg). exists p. split; [assumption|]. split; [assumption|].
      left. rewrite Es. apply glob_star_all.
    + intros [H1 _]. split; [apply H1|assumption].
  - apply (K2 s k D).
Qed.
Print Assumptions C12_select_globs_opened.
Example C12_example : reachable run /\
  Forall valid_pair [("DET*", "image.*"); ("X?M", "beam.pos"); ("*:daq", "*")] /\
  (exists d', select run (SelGlobs [("DET*", "image.*"); ("X?M", "beam.pos"); ("*:daq", "*")]) = Ok d' /\
     content d' = [("XGM", ["beam.pos"]); ("DET:out", ["image.data"]); ("CAM:daq", ["data.pix"])]) /\
  select run (SelGlobs [("DET*", "image.*"); ("X?M", "nokey")]) = Err EValueError.
Proof.
  split; [exact run_reachable|]. split.
  - repeat (apply Forall_cons || apply Forall_nil || split); apply valid_patternb_ok; reflexivity.
  - split; [|reflexivity]. eexists. split; vm_compute; reflexivity.
Qed.

(** ** C13 *)
Theorem C13_glob_meaning : forall p ts s, glob_compile p = Ok ts -> (glob_match ts s = true <-> glob p s).
Proof. intros p ts s H. exact (glob_compile_spec s H). Qed.
Print Assumptions C13_glob_meaning.
Theorem C13_glob_accepted : forall p, (exists ts, glob_compile p = Ok ts) <-> valid_pattern p.
Proof. exact glob_compile_iff. Qed.
Print Assumptions C13_glob_accepted.

Theorem C13_key_pattern : forall (is_ctrl : bool) p ts key, glob_compile p = Ok ts ->
  ((if is_ctrl then ctrl_key_match p ts else glob_match ts) key = true <-> key_glob is_ctrl p key).
Proof. exact key_match_spec. Qed.
Print Assumptions C13_key_pattern.
Example C13_example : exists ts, glob_compile "MID_DET_AGIPD1M-1/DET/[!5-9]*CH0:?tdf" = Ok ts /\
  glob_match ts "MID_DET_AGIPD1M-1/DET/11CH0:xtdf" = true /\ glob_match ts "MID_DET_AGIPD1M-1/DET/7CH0:xtdf" = false /\
  ctrl_key_match "beam*Position" ts "x" = false /\
  (exists ts', glob_compile "beam*n" = Ok ts' /\ ctrl_key_match "beam*n" ts' "beamPosition.value" = true /\
     glob_match ts' "beamPosition.value" = false).
Proof. eexists. repeat split. eexists. repeat split. Qed.

Example C13_refused : ~ valid_pattern "[z-a]*" /\ valid_pattern "SPB_DET_AGIPD1M-1/DET/*CH0:[a-z]*".
Proof.
  split; [|apply valid_patternb_ok; reflexivity]. intros H. apply glob_compile_iff in H as [ts H]. vm_compute in H. discriminate.
Qed.

(** ** C14 *)
Theorem C14_deselect_globs : forall (V : Type) (d : dcoll V) L, reachable d -> Forall valid_pair L ->
  ((exists p, In p L /\ forall s, ~ hits_source d p s) -> deselect d (SelGlobs L) = Err EValueError) /\
  ((forall p, In p L -> exists s, hits_source d p s) -> exists d', deselect d (SelGlobs L) = Ok d' /\
     dc_tids d' = dc_tids d /\
     (forall s, In s (dc_sources d') <-> In s (dc_sources d) /\ ~ (exists p, In p L /\ snd p = "*" /\ glob (fst p) s)) /\
     (forall s k, available d' s k <-> available d s k /\ ~ (exists p, In p L /\ hits d p s k))).
Proof. exact @deselect_globs_spec. Qed.
Print Assumptions C14_deselect_globs.
Theorem C14_deselect_dict : forall (V : Type) (d : dcoll V) l, reachable d ->
  (forall s ks, In (s, ks) l -> ks <> []) -> NoDup (map fst l) ->
  ((exists s, In s (map fst l) /\ ~ In s (dc_sources d)) -> deselect d (SelDict l) = Err ESourceNameError) /\
  ((forall s, In s (map fst l) -> In s (dc_sources d)) -> exists d', deselect d (SelDict l) = Ok d' /\
     dc_tids d' = dc_tids d /\ (forall s, In s (dc_sources d') <-> In s (dc_sources d)) /\
     (forall s k, available d' s k <-> available d s k /\ ~ exists ks, In (s, ks) l /\ In k ks)).
Proof. exact @deselect_dict_spec. Qed.
Print Assumptions C14_deselect_dict.
Example C14_example : reachable run /\ Forall valid_pair [("*", "header.*"); ("CAM*", "*")] /\
  exists d', deselect run (SelGlobs [("*", "header.*"); ("CAM*", "*")]) = Ok d' /\
     content d' = [("XGM", ["beam.pos"]); ("DET:out", ["image.data"])].
Proof.
  split; [exact run_reachable|]. split; [repeat (apply Forall_cons || apply Forall_nil || split); apply valid_patternb_ok; reflexivity|].
  eexists. split; vm_compute; reflexivity.
Qed.

(** ** C15 *)
Theorem C15_union_outcome : forall (V : Type) (ds : list (dcoll V)) r, is_union ds r ->
  (conflicting (union_files ds) /\ r = Err EValueError) \/ (~ conflicting (union_files ds) /\ exists d', r = Ok d').
Proof. exact @union_outcome. Qed.
Print Assumptions C15_union_outcome.
Theorem C15_union_contents : forall (V : Type) (ds : list (dcoll V)) d',
  (forall d, In d ds -> reachable d) -> consistent_names (all_files ds) -> is_union ds (Ok d') ->
  (forall d, In d ds -> settled d /\ real_keys d) -> uniform_keys (all_files ds) ->
  StronglySorted Z.lt (dc_tids d') /\
  (forall t, In t (dc_tids d') <-> exists d, In d ds /\ In t (dc_tids d)) /\
  (forall s, In s (dc_sources d') <-> exists d, In d ds /\ In s (dc_sources d)) /\
  (forall s k, available d' s k <-> exists d, In d ds /\ available d s k).
Proof.
  intros V ds d' HR C HU HS U. destruct (union_spec HR C HU) as (_ & H1 & H2 & _). split; [exact H1|]. split; [exact H2|].
  split; [exact (union_sources_settled HR C HU (fun d H => proj1 (HS d H)))|exact (union_available HR C HU HS U)].
Qed.
Print Assumptions C15_union_contents.
Theorem C15_union_data : forall (V : Type) (ds : list (dcoll V)) d' d t s k,
  (forall d, In d ds -> reachable d) -> consistent_names (all_files ds) ->
  is_union ds (Ok d') -> reachable d' -> good_collection d' -> In d ds -> good_collection d ->
  In t (dc_tids d) -> available d s k -> available d' s k -> (exists f, holds d f s t) ->
  exists r r', train_from_id d t = Ok (t, r) /\ train_from_id d' t = Ok (t, r') /\ item r' s k = item r s k.
Proof. exact @union_data. Qed.
Print Assumptions C15_union_data.
Theorem C15_union_order : forall (V : Type) (ds1 ds2 : list (dcoll V)) r1 r2, Permutation ds1 ds2 ->
  (forall d, In d ds1 -> reachable d) -> consistent_names (all_files ds1) -> uniform_keys (all_files ds1) ->
  is_union ds1 r1 -> is_union ds2 r2 ->
  (r1 = Err EValueError /\ r2 = Err EValueError) \/ (exists d1 d2, r1 = Ok d1 /\ r2 = Ok d2 /\ same_content d1 d2).
Proof. exact @union_order. Qed.
Print Assumptions C15_union_order.
Theorem C15_same_content_same_data : forall (V : Type) (d1 d2 : dcoll V) t r1 r2 s k, reachable d1 -> reachable d2 ->
  good_collection d1 -> good_collection d2 -> same_content d1 d2 ->
  train_from_id d1 t = Ok (t, r1) -> train_from_id d2 t = Ok (t, r2) -> available d1 s k -> item r2 s k = item r1 s k.
Proof. exact @same_content_items. Qed.
Print Assumptions C15_same_content_same_data.

Definition run23 : dcoll Z := force no_coll (open_files [file2; file3]).
Lemma run23_reachable : reachable run23.
Proof. apply (open_files_reachable [file2; file3]). vm_compute. reflexivity. Qed.
(** The operands of the union: one without XGM, one restricted to train 11 (so
    that only the CAM file is left). *)
Definition noXGM : dcoll Z := force no_coll (deselect run23 (SelGlobs [("XGM", "*")])).
Definition only11 : dcoll Z := force no_coll (select_trains run23 (ByIdList [11%Z])).
Lemma noXGM_reachable : reachable noXGM.
Proof. apply (@reach_deselect Z run23 (SelGlobs [("XGM", "*")])); [exact run23_reachable|]. vm_compute. reflexivity. Qed.
Lemma only11_reachable : reachable only11.
Proof. apply (@reach_trains Z run23 (ByIdList [11%Z])); [exact run23_reachable|]. vm_compute. reflexivity. Qed.
(** Without the condition [settled], a source which neither operand has can come back. *)
Theorem C15_union_sources_refuted : exists (d1 d2 d' : dcoll Z) s, reachable d1 /\ reachable d2 /\
  is_union [d1; d2] (Ok d') /\ In s (dc_sources d') /\ ~ In s (dc_sources d1) /\ ~ In s (dc_sources d2).
Proof.
  destruct (union_in_order (union_files [only11; noXGM]) [only11; noXGM]) as [d'|] eqn:E; [|exfalso; revert E; vm_compute; discriminate].
  exists only11, noXGM, d', "XGM". split; [exact only11_reachable|]. split; [exact noXGM_reachable|]. split.
  - exists (union_files [only11; noXGM]). split; [apply Permutation_refl|symmetry; exact E].
  - vm_compute in E. injection E as <-. split; [vm_compute; auto|]. split; vm_compute; intuition discriminate.
Qed.
Print Assumptions C15_union_sources_refuted.

Definition run_cam : dcoll Z := force no_coll (select run (SelGlobs [("CAM*", "*")])).
Definition run_det : dcoll Z := force no_coll (select run (SelGlobs [("DET*", "image.*")])).
Lemma run_cam_reachable : reachable run_cam.
Proof. apply (@reach_select Z run (SelGlobs [("CAM*", "*")])); [exact run_reachable|]. vm_compute. reflexivity. Qed.
Lemma run_det_reachable : reachable run_det.
Proof. apply (@reach_select Z run (SelGlobs [("DET*", "image.*")])); [exact run_reachable|]. vm_compute. reflexivity. Qed.
Definition key_listb (a b : list string) : bool :=
  forallb (fun k => str_in k b) a && forallb (fun k => str_in k a) b.
Definition uniformb (files : list (faccess Z)) : bool :=
  forallb (fun f => forallb (fun f' => forallb (fun s => negb (str_in s (fa_sources f')) ||
    match fa_get_keys f s, fa_get_keys f' s with Ok a, Ok b => key_listb a b | _, _ => true end) (fa_sources f)) files) files.
Lemma uniformb_ok : forall files, uniformb files = true -> uniform_keys files.
Proof.
  intros files H f f' s ks ks' Hf Hf' Hs Hs' Hk Hk' k. unfold uniformb in H. rewrite forallb_forall in H.
  specialize (H f Hf). rewrite forallb_forall in H. specialize (H f' Hf'). rewrite forallb_forall in H. specialize (H s Hs).
  rewrite (proj2 (str_in_iff _ _) Hs'), Hk, Hk' in H. simpl in H. apply andb_prop in H as [H1 H2].
  rewrite forallb_forall in H1, H2. split; intros X; apply str_in_iff; auto.
Qed.
Example C15_example : reachable run_cam /\ reachable run_det /\ settled run_cam /\ settled run_det /\
  consistent_names (all_files [run_cam; run_det]) /\ uniform_keys (all_files [run_cam; run_det]) /\
  exists d', is_union [run_cam; run_det] (Ok d') /\
    content d' = [("CAM:daq", ["data.pix"]); ("DET:out", ["image.data"])] /\ dc_tids d' = [10; 11; 12; 13; 14]%Z.
Proof.
  split; [exact run_cam_reachable|]. split; [exact run_det_reachable|].
  split; [intros s; vm_compute; tauto|]. split; [intros s; vm_compute; tauto|].
  split.
  - intros f f' Hf Hf' E. vm_compute in Hf, Hf'.
    destruct Hf as [<-|[<-|[<-|[]]]], Hf' as [<-|[<-|[<-|[]]]]; try reflexivity; vm_compute in E; discriminate.
  - split; [apply uniformb_ok; vm_compute; reflexivity|].
    destruct (union_in_order (union_files [run_cam; run_det]) [run_cam; run_det]) as [d'|] eqn:E; [|exfalso; revert E; vm_compute; discriminate].
    exists d'. split; [exists (union_files [run_cam; run_det]); split; [apply Permutation_refl|symmetry; exact E]|].
    vm_compute in E. injection E as <-. split; vm_compute; reflexivity.
Qed.

(** ** C16 *)
Theorem C16_conflicts : forall (V : Type) (files : list (faccess V)) sel tids,
  (conflicting files -> mk_collection files sel tids = Err EValueError) /\
  (~ conflicting files -> exists d, mk_collection files sel tids = Ok d).
Proof. exact @conflict_spec. Qed.
Print Assumptions C16_conflicts.
(** The same file twice conflicts; a run in sequence files does not. *)
Example C16_example : open_files [file1; file3; file1] = Err EValueError /\ open_files [file1; file2; file3] = Ok run.
Proof. split; [reflexivity|exact run_open]. Qed.

(** ** C17 *)
Theorem C17_nothing_new : forall (V : Type) (d d' : dcoll V), reachable d -> derived d d' ->
  (forall s, In s (dc_sources d') -> In s (dc_sources d)) /\
  (forall t, In t (dc_tids d') -> In t (dc_tids d)).
Proof.
  intros V d d' R H. destruct (derived_narrower R H) as [_ (N1 & N2 & N3 & _)]. split; [exact N3|exact N2].
Qed.
Print Assumptions C17_nothing_new.
Theorem C17_train_data : forall (V : Type) (d d' : dcoll V), reachable d -> good_collection d -> derived d d' ->
  (forall s k, available d' s k -> available d s k) ->
  forall t, In t (dc_tids d') -> exists r r',
    train_from_id d t = Ok (t, r) /\ train_from_id d' t = Ok (t, r') /\
    (forall s, In s (dict_keys r') <-> In s (dc_sources d')) /\
    (forall s k, available d' s k -> item r' s k = item r s k).
Proof. exact @derived_trains_same. Qed.
Print Assumptions C17_train_data.
Theorem C17_array_data : forall (V : Type) (d d' : dcoll V) s k a a', reachable d -> derived d d' ->
  distinct_kinds d -> good_files d -> good_index d s k ->
  get_array d s k = Ok a -> get_array d' s k = Ok a' ->
  (forall t, In t (dc_tids d') -> rows_labelled t (la_labels a') (la_rows a') = rows_labelled t (la_labels a) (la_rows a)) /\
  (forall t, ~ In t (dc_tids d') -> rows_labelled t (la_labels a') (la_rows a') = []).
Proof. exact @derived_array_same. Qed.
Print Assumptions C17_array_data.
Definition run_hist1 : dcoll Z := force no_coll (select_trains run (ByIndex (mk_slice (Some 1%Z) None None))).
Definition run_hist2 : dcoll Z := force no_coll (deselect run_hist1 (SelGlobs [("CAM*", "*")])).
Definition run_hist : dcoll Z := force no_coll (select run_hist2 (SelGlobs [("D*", "i*")])).
Example C17_example : reachable run /\ good_collection run /\ derived run run_hist /\
  distinct_kinds run /\ good_files run /\ good_index run "DET:out" "image.data" /\
  (exists a a', get_array run "DET:out" "image.data" = Ok a /\ get_array run_hist "DET:out" "image.data" = Ok a' /\
     la_labels a' = [12; 12; 12; 13; 14; 14]%Z).
Proof.
  split; [exact run_reachable|]. split; [exact run_good|]. split.
  - apply (@derived_select Z run run_hist2 (SelGlobs [("D*", "i*")])); [|vm_compute; reflexivity].
    apply (@derived_deselect Z run run_hist1 (SelGlobs [("CAM*", "*")])); [|vm_compute; reflexivity].
    apply (@derived_trains Z run run (ByIndex (mk_slice (Some 1%Z) None None))); [apply derived_refl|vm_compute; reflexivity].
  - split; [apply distinct_kindsb_ok; reflexivity|]. split; [apply good_filesb_ok; reflexivity|].
    split; [apply good_indexb_ok; reflexivity|]. do 2 eexists. split; [vm_compute; reflexivity|]. split; vm_compute; reflexivity.
Qed.

(** ** C18 *)
Theorem C18_narrowing : forall (V : Type) (d d' : dcoll V), reachable d -> uniform_keys (dc_files d) -> derived_narrow d d' ->
  forall s k, available d' s k -> available d s k.
Proof. exact @narrow_available. Qed.
Print Assumptions C18_narrowing.
(** With the key pattern "*" a deselected key comes back. *)
Theorem C18_star_widens_refuted : exists (d d1 d2 : dcoll Z) s k, reachable d /\
  deselect d (SelGlobs [(s, k)]) = Ok d1 /\ ~ available d1 s k /\
  select d1 (SelGlobs [(s, "*")]) = Ok d2 /\ available d2 s k.
Proof.
  destruct (deselect run (SelGlobs [("DET:out", "header.len")])) as [d1|] eqn:E1; [|exfalso; revert E1; vm_compute; discriminate].
  destruct (select d1 (SelGlobs [("DET:out", "*")])) as [d2|] eqn:E2; [|exfalso; revert E2 E1; vm_compute; intros H1 H2; injection H2 as <-; discriminate].
  exists run, d1, d2, "DET:out", "header.len". split; [exact run_reachable|]. split; [exact E1|].
  vm_compute in E1. injection E1 as <-. split; [|split; [exact E2|]].
  - intros (_ & ks & H & Hk). vm_compute in H. injection H as <-. simpl in Hk. intuition discriminate.
  - vm_compute in E2. injection E2 as <-. split; [vm_compute; auto|]. eexists. split; [vm_compute; reflexivity|]. simpl; auto.
Qed.
Print Assumptions C18_star_widens_refuted.
Definition nar1 : dcoll Z := force no_coll (select run (SelGlobs [("DET*", "*.*")])).
Definition nar2 : dcoll Z := force no_coll (deselect nar1 (SelGlobs [("DET*", "image.*")])).
Definition nar3 : dcoll Z := force no_coll (select_trains nar2 (ByIndex (mk_slice None (Some 2%Z) None))).
Example C18_example : reachable run /\ uniform_keys (dc_files run) /\
  derived_narrow run nar3 /\ content nar3 = [("DET:out", ["header.len"])] /\ dc_tids nar3 = [10; 11]%Z.
Proof.
  split; [exact run_reachable|]. split; [apply uniformb_ok; vm_compute; reflexivity|]. split.
  - apply (@narrow_trains Z run nar2 (ByIndex (mk_slice None (Some 2%Z) None))); [|vm_compute; reflexivity].
    apply (@narrow_deselect Z run nar1 (SelGlobs [("DET*", "image.*")])); [|vm_compute; reflexivity].
    apply (@narrow_select Z run run [("DET*", "*.*")]); [apply narrow_refl| |vm_compute; reflexivity].
    intros p [<-|[]]. discriminate.
  - split; vm_compute; reflexivity.
Qed.

(** ** C60 *)
Theorem C60_select_dict : forall (V : Type) (d : dcoll V) l, reachable d ->
  (forall s ks, In (s, ks) l -> ks <> []) -> NoDup (map fst l) ->
  ((exists s, In s (map fst l) /\ ~ In s (dc_sources d)) -> select d (SelDict l) = Err ESourceNameError) /\
  ((forall s, In s (map fst l) -> In s (dc_sources d)) -> exists d', select d (SelDict l) = Ok d' /\
     dc_tids d' = dc_tids d /\ (forall s, In s (dc_sources d') <-> In s (map fst l)) /\
     (forall s k, available d' s k <-> exists ks, In (s, ks) l /\ In k ks)).
Proof. exact @select_dict_spec. Qed.
Print Assumptions C60_select_dict.
(** The documented empty set ("all keys") always fails for a known source. *)
Theorem C60_empty_keys_refuted : forall (V : Type) (d : dcoll V) s, In s (dc_sources d) ->
  select d (SelDict [(s, [])]) = Err ETypeError.
Proof. intros V d s H. unfold select, expand_selection. simpl. rewrite (proj2 (str_in_iff _ _) H). reflexivity. Qed.
Print Assumptions C60_empty_keys_refuted.
(** An argument of any other type silently selects nothing. *)
Theorem C60_other_type_refuted : exists (d d' : dcoll Z), reachable d /\ dc_sources d <> [] /\
  select d SelOther = Ok d' /\ dc_sources d' = [].
Proof.
  eexists run, _. split; [exact run_reachable|]. split; [vm_compute; discriminate|]. split; vm_compute; reflexivity.
Qed.
Print Assumptions C60_other_type_refuted.
(** Keys are not checked: a key which does not exist can be selected, and reading it fails. *)
Theorem C60_unknown_key_refuted : exists (d d' : dcoll Z) s k, reachable d /\ ~ available d s k /\
  select d (SelDict [(s, [k])]) = Ok d' /\ available d' s k.
Proof.
  destruct (select run (SelDict [("XGM", ["oops"])])) as [d'|] eqn:E; [|exfalso; revert E; vm_compute; discriminate].
  exists run, d', "XGM", "oops". split; [exact run_reachable|]. split; [|split; [exact E|]].
  - intros (_ & ks & H & Hk). vm_compute in H. injection H as <-. simpl in Hk. intuition discriminate.
  - vm_compute in E. injection E as <-. split; [vm_compute; auto|]. eexists. split; [vm_compute; reflexivity|]. simpl; auto.
Qed.
Print Assumptions C60_unknown_key_refuted.
Example C60_example : reachable run /\
  (exists d', select run (SelDict [("XGM", ["beam.pos"]); ("DET:out", ["image.data"; "header.len"])]) = Ok d' /\
     content d' = [("XGM", ["beam.pos"]); ("DET:out", ["image.data"; "header.len"])]) /\
  select run (SelDict [("XGM", ["beam.pos"]); ("NOPE", ["a"])]) = Err ESourceNameError.
Proof. split; [exact run_reachable|]. split; [eexists; split; vm_compute; reflexivity|reflexivity]. Qed.
