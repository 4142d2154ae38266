(** C28-C30, C62: validation. *)
From Verif Require Import Base PyStr M_Files M_Machinery M_Reader M_Glob M_Select M_Series S_Reader S_Coll S_Avail S_Series
  M_Validation S_Validation L_Base L_Select L_Array2 L_Trains L_Field L_Writer4 L_Check L_Validation L_Validation2 Ex_Files P_Series.
Local Open Scope string_scope.
Local Open Scope list_scope.

(** ** C28: a file that validates has a usable index *)
Theorem C28_passed_is_usable : forall (V : Type) (f : h5file V) fa,
  fa_open f = Ok fa -> file_sane f -> file_checks fa = Ok [] -> usable_file fa.
Proof. exact @passed_usable. Qed.
Print Assumptions C28_passed_is_usable.

(** An index with a count of 2^64 - 1, or (in the old format) a train whose last row is
    before its first one, passes: the end of the train wraps around. *)
Definition wrap_file : h5file Z := mk_h5 "wrap.h5" (Some [1;2;3]%Z) (Some "1.0") None
  (Some ["INSTRUMENT/CAM:daq/data"])
  [("CAM:daq/data", mk_ix [0;2;1]%Z (IxCount [2;18446744073709551615;1]%Z))]
  [("INSTRUMENT/CAM:daq/data/pix", dsZ [50;51]%Z)].
Definition wrap_old : h5file Z := mk_h5 "wrap.h5" (Some [1;2;3]%Z) (Some "1.0") None
  (Some ["INSTRUMENT/CAM:daq/data"])
  [("CAM:daq/data", mk_ix [0;2;1]%Z (IxLastStatus [1;0;1]%Z [1;1;1]%Z))]
  [("INSTRUMENT/CAM:daq/data/pix", dsZ [50;51]%Z)].
Definition fa_of (f : h5file Z) : faccess Z := force (mk_fa f [] [] []) (fa_open f).
Theorem C28_wrapped_count_refuted :
  Forall (fun f => fa_open f = Ok (fa_of f) /\ file_typed f /\ file_checks (fa_of f) = Ok [] /\ ~ usable_file (fa_of f))
    [wrap_file; wrap_old].
Proof.
  assert (K : forall f g, fa_open f = Ok (fa_of f) -> file_typedb f = true -> file_checks (fa_of f) = Ok [] ->
    In "CAM:daq" (fa_inst (fa_of f)) -> fa_get_keys (fa_of f) "CAM:daq" = Ok ["data.pix"] -> List.length (fa_tids (fa_of f)) = 3%nat ->
    dict_get (index_key false "CAM:daq" "data.pix") (h5_index (fa_file (fa_of f))) = Some g ->
    (exists a c b, nth_error (ix_first g) 1 = Some a /\ entry_count g 1 = Some c /\ nth_error (ix_first g) 2 = Some b /\ (b <> a + c \/ c < 0))%Z ->
    fa_open f = Ok (fa_of f) /\ file_typed f /\ file_checks (fa_of f) = Ok [] /\ ~ usable_file (fa_of f)).
  { intros f g H1 H2 H3 H4 H5 H6 H7 (x & c & y & H8 & H9 & H10 & H11). split; [exact H1|]. split; [now apply file_typedb_ok|]. split; [exact H3|].
    intros [_ H]. destruct (H "CAM:daq" ["data.pix"] "data.pix" H4 H5 (or_introl eq_refl)) as (g' & ds & Hg & Hd & (U1 & _ & U)).
    rewrite H7 in Hg. injection Hg as <-. rewrite H6 in *. destruct H11 as [H11|H11].
    - apply H11. apply (U 1%nat x c y); try assumption. lia.
    - destruct (U1 1%nat) as (x' & c' & _ & E & _ & B & _); [lia|]. rewrite H9 in E. injection E as <-. lia. }
  apply Forall_cons; [|apply Forall_cons; [|apply Forall_nil]].
  - apply (K wrap_file (mk_ix [0;2;1]%Z (IxCount [2;18446744073709551615;1]%Z))); try reflexivity; [vm_compute; auto|].
    exists 2%Z, 18446744073709551615%Z, 1%Z. repeat split; try reflexivity. left. discriminate.
  - apply (K wrap_old (mk_ix [0;2;1]%Z (IxLastStatus [1;0;1]%Z [1;1;1]%Z))); try reflexivity; [vm_compute; auto|].
    exists 2%Z, (-1)%Z, 1%Z. repeat split; try reflexivity. right. reflexivity.
Qed.
Print Assumptions C28_wrapped_count_refuted.

(** First and count datasets of different lengths are not reported: the check itself
    fails with ValueError, and so with other missing parts. *)
Definition ragged_file : h5file Z := mk_h5 "ragged.h5" (Some [1;2;3]%Z) (Some "1.0") None
  (Some ["INSTRUMENT/CAM:daq/data"])
  [("CAM:daq/data", mk_ix [0;1;2]%Z (IxCount [1;1]%Z))]
  [("INSTRUMENT/CAM:daq/data/pix", dsZ [50;51;52]%Z)].
Theorem C28_ragged_index_refuted : exists f fa, fa_open f = Ok fa /\ file_sane f /\ ~ usable_file (V := Z) fa /\
  file_checks fa = Err EValueError.
Proof.
  exists ragged_file, (fa_of ragged_file). split; [reflexivity|]. split; [apply file_saneb_ok; reflexivity|].
  split; [|reflexivity]. intros [_ H]. destruct (H "CAM:daq" ["data.pix"] "data.pix") as (g & ds & Hg & Hd & (U & _)); [now left|reflexivity|now left|].
  vm_compute in Hg. injection Hg as <-. destruct (U 2%nat) as (a & c & _ & Hc & _); [simpl; lia|]. discriminate.
Qed.
Print Assumptions C28_ragged_index_refuted.

Definition bad_tids : h5file Z := mk_h5 "tids.h5" (Some [1;0;3;3]%Z) (Some "1.0") None (Some []) [] [].
Definition bad_index : h5file Z := mk_h5 "index.h5" (Some [1;2;3;4]%Z) (Some "1.0") None (Some ["INSTRUMENT/CAM:daq/data"])
  [("CAM:daq/data", mk_ix [1;3;3;5]%Z (IxCount [1;1;1;7]%Z))] [("INSTRUMENT/CAM:daq/data/pix", dsZ [50;51;52;53;54;55]%Z)].
Example C28_example :
  (fa_open file1 = Ok (fa_of file1) /\ file_sane file1 /\ file_checks (fa_of file1) = Ok []) /\
  (fa_open file2 = Ok (fa_of file2) /\ file_sane file2 /\ file_checks (fa_of file2) = Ok []) /\
  file_checks (fa_of bad_tids) = Ok [mk_problem "tids.h5" PZeroesBefore; mk_problem "tids.h5" (PNotIncreasing 1 3 3)] /\
  file_checks (fa_of bad_index) = Ok [mk_problem "index.h5" (POutside "INSTRUMENT/CAM:daq/data/pix" 12 6);
    mk_problem "index.h5" (PNotAtZero "INDEX/CAM:daq/data"); mk_problem "index.h5" (PGaps "INDEX/CAM:daq/data" 2 0 1 1 3);
    mk_problem "index.h5" (POverlaps "INDEX/CAM:daq/data" 1 1 3 1 3)].
Proof.
  split; [split; [reflexivity|]; split; [apply file_saneb_ok; reflexivity|vm_compute; reflexivity]|].
  split; [split; [reflexivity|]; split; [apply file_saneb_ok; reflexivity|vm_compute; reflexivity]|].
  split; vm_compute; reflexivity.
Qed.

(** ** C29: a good file produces no report *)
Theorem C29_usable_passes : forall (V : Type) (f : h5file V) fa,
  fa_open f = Ok fa -> file_typed f -> fa_tids fa <> [] -> usable_file fa -> file_checks fa = Ok [].
Proof. exact @usable_passes. Qed.
Print Assumptions C29_usable_passes.
Example C29_example : fa_open file1 = Ok (fa_of file1) /\ file_typed file1 /\ fa_tids (fa_of file1) <> [] /\ usable_file (fa_of file1).
Proof.
  split; [reflexivity|]. split; [apply file_typedb_ok; reflexivity|]. split; [discriminate|].
  apply (@C28_passed_is_usable Z file1 (fa_of file1)); [reflexivity|apply file_saneb_ok; reflexivity|vm_compute; reflexivity].
Qed.

(** A file without any train makes the check fail with IndexError. *)
Definition trainless : h5file Z := mk_h5 "none.h5" (Some [0;0]%Z) (Some "1.0") None (Some ["INSTRUMENT/CAM:daq/data"])
  [("CAM:daq/data", mk_ix [0;0]%Z (IxCount [0;0]%Z))] [("INSTRUMENT/CAM:daq/data/pix", dsZ [])].
Theorem C29_no_trains_refuted : exists f fa, fa_open f = Ok fa /\ file_sane f /\ usable_file (V := Z) fa /\
  file_checks fa = Err EIndexError.
Proof.
  exists trainless, (fa_of trainless). split; [reflexivity|]. split; [apply file_saneb_ok; reflexivity|]. split; [|reflexivity].
  split.
  - exists [0;0]%Z. split; [reflexivity|]. exists [], 2%nat. split; [reflexivity|]. split; constructor.
  - intros s ks k [<-|[]] Hks Hk. vm_compute in Hks. injection Hks as <-. destruct Hk as [<-|[]].
    do 2 eexists. split; [reflexivity|]. split; [reflexivity|]. simpl. split; [intros p Hp; lia|]. split; intros; lia.
Qed.
Print Assumptions C29_no_trains_refuted.

(** ** C30: validated files can be read consistently *)
Theorem C30_instrument_data : forall (V : Type) (d : dcoll V) s k,
  reachable d -> distinct_kinds d ->
  (forall f, In f (dc_files d) -> file_sane (fa_file f) /\ file_checks f = Ok []) ->
  In s (dc_inst d) -> field_everywhere d s k -> available d s k ->
  exists a counts, get_array d s k = Ok a /\ get_data_counts d s k = Ok counts /\
    (forall f t, holds d f s t -> In t (dc_tids d) ->
       file_rows (fa_file f) false s k t (rows_labelled t (la_labels a) (la_rows a)) /\
       In (t, Z.of_nat (List.length (rows_labelled t (la_labels a) (la_rows a)))) counts) /\
    (forall t, ~ (In t (dc_tids d) /\ exists f, holds d f s t) ->
       rows_labelled t (la_labels a) (la_rows a) = [] /\ forall c, ~ In (t, c) counts) /\
    (forall first pulse ser t, get_series first pulse d s k = Ok ser ->
       series_values t ser = rows_labelled t (la_labels a) (la_rows a) \/
       series_values t ser = map first (rows_labelled t (la_labels a) (la_rows a))).
Proof.
  intros V d s k Hr Hk Hp Hs Hf Hcf. destruct (passed_field Hr Hk Hp Hs Hf) as (G1 & G2 & G3 & G4 & G5).
  destruct (get_array_progress Hr Hk G1 G2 G3 (proj2 (check_field_iff d s k) Hcf) G5) as [a Ha].
  assert (Hri : readable_index d s k).
  { intros f Hin Hsf. destruct (G2 f Hin Hsf) as (g & E & Hok & _). exists g. split; [exact E|exact (proj1 Hok)]. }
  destruct (C21_instrument_counts V d s k Hr Hk G1 Hs Hri Hcf G5) as (counts & Hc & Hnd & Hci).
  exists a, counts. split; [exact Ha|]. split; [exact Hc|].
  destruct (@get_array_correct V d s k a Hr Hk G1 G2 Ha) as [A1 A2].
  assert (Hctrl : str_in s (dc_ctrl d) = false).
  { destruct (reachable_inv Hr) as [Hb _]. destruct (L_Series.inst_not_ctrl Hb Hk Hs) as [X _]. exact X. }
  split; [|split].
  - intros f t Hh Ht. assert (Hh' := Hh). destruct Hh' as (F1 & F2 & F3). pose proof (A1 f t F1 F2 F3 Ht) as R. rewrite Hctrl in R.
    split; [exact R|]. assert (Hin : exists c, In (t, c) counts).
    { destruct R as (raw & p & g & x & c & ds & R1 & R2 & R3 & R4 & R5 & R6 & _). exists c. apply Hci. split; [exact Ht|].
      exists f. split; [exact Hh|]. exists raw, p, g. auto. }
    destruct Hin as [c Hin].
    rewrite (C21_counts_match_array V d s k a counts Hr Hk G1 G2 G3 Hs G5 Ha Hc t c Hin). exact Hin.
  - intros t Hn. split; [exact (A2 t Hn)|]. intros c Hin. apply Hci in Hin as [Ht (f & Hh & _)]. apply Hn. eauto.
  - intros first pulse ser t Hser. apply (C22_series_agrees_with_array V first pulse d s k ser a Hr Hk G1 G2 G4); try assumption.
    intros Hx. apply str_in_iff in Hx. congruence.
Qed.
Print Assumptions C30_instrument_data.

Theorem C30_trains : forall (V : Type) (d : dcoll V),
  reachable d -> distinct_kinds d ->
  (forall f, In f (dc_files d) -> file_sane (fa_file f) /\ file_checks f = Ok []) ->
  good_control d -> (forall s k, In s (dc_inst d) -> available d s k -> field_everywhere d s k) ->
  forall t, In t (dc_tids d) -> exists r, train_from_id d t = Ok (t, r) /\ train_view value_of d t r /\
    forall s k a, In s (dc_inst d) -> available d s k -> get_array d s k = Ok a ->
      item r s k = value_of (rows_labelled t (la_labels a) (la_rows a)).
Proof.
  intros V d Hr Hk Hp Hc Hf t Ht. pose proof (passed_collection Hr Hk Hp Hc Hf) as Hg.
  destruct (train_from_id_correct Hr Hg Ht) as (r & E & H1 & H2). exists r. split; [exact E|]. split; [split; assumption|].
  intros s k a Hs Av Ha. destruct (passed_field Hr Hk Hp Hs (Hf s k Hs Av)) as (_ & G2 & _).
  exact (train_item Hr Hg G2 Av Ha Ht E).
Qed.
Print Assumptions C30_trains.

Lemma run_fields : forall s k, In s (dc_inst run) -> available run s k -> field_everywhere run s k.
Proof.
  intros s k Hs [_ (ks & Hks & Hk)].
  assert (Hs' : s = "DET:out" \/ s = "CAM:daq") by (vm_compute in Hs; intuition).
  assert (F : dc_files run = [fa_of file1; fa_of file2; fa_of file3]) by reflexivity.
  unfold field_everywhere. rewrite F. split.
  - intros f Hf Hsf. simpl in Hf. destruct Hs' as [->| ->];
      (vm_compute in Hks; injection Hks as <-; destruct Hf as [<-|[<-|[<-|[]]]];
       try (exfalso; vm_compute in Hsf; intuition discriminate); eexists; (split; [vm_compute; reflexivity|exact Hk])).
  - exists "f4", []. intros f ds Hf Hsf Hds. apply dict_get_In in Hds. simpl in Hf.
    apply (in_map snd) in Hds. destruct Hf as [<-|[<-|[<-|[]]]]; cbn [snd map fa_file fa_of force h5_data file1 file2 file3 In fa_open] in Hds;
      vm_compute in Hds; intuition (subst; split; reflexivity).
Qed.
Example C30_example : reachable run /\ distinct_kinds run /\
  (forall f, In f (dc_files run) -> file_sane (fa_file f) /\ file_checks f = Ok []) /\
  In "DET:out" (dc_inst run) /\ field_everywhere run "DET:out" "image.data" /\
  available run "DET:out" "image.data" /\ good_control run /\
  (forall s k, In s (dc_inst run) -> available run s k -> field_everywhere run s k).
Proof.
  split; [exact run_reachable|]. split; [apply distinct_kindsb_ok; reflexivity|].
  split; [apply passedb_ok; vm_compute; reflexivity|]. split; [vm_compute; auto|].
  split; [apply run_fields; [vm_compute; auto|split; [vm_compute; auto|eexists; split; [vm_compute; reflexivity|simpl; auto]]]|].
  split; [apply check_field_iff; reflexivity|]. split; [|exact run_fields].
  destruct run_good as (_ & _ & G3 & G4). intros s Hs. split; [exact (G3 s Hs)|]. intros k ks Hks Hk. apply (G4 s k ks); try assumption.
  apply L_Base.set_union_In. now left.
Qed.

(** Control sources are not checked: a file which validates can have train_from_id and
    get_array disagree about slow data. *)
Definition ctrl_file : h5file Z := mk_h5 "ctrl.h5" (Some [1;2]%Z) (Some "1.0") None (Some ["CONTROL/XGM"])
  [("XGM", mk_ix [0;1]%Z (IxCount [0;1]%Z))] [("CONTROL/XGM/v", dsZ [10;20]%Z)].
Definition ctrl_run : dcoll Z := force no_coll (open_files [ctrl_file]).
Theorem C30_control_unchecked_refuted : exists (d : dcoll Z) t r a,
  reachable d /\ distinct_kinds d /\
  (forall f, In f (dc_files d) -> file_sane (fa_file f) /\ file_checks f = Ok []) /\
  train_from_id d t = Ok (t, r) /\ get_array d "XGM" "v" = Ok a /\
  item r "XGM" "v" = Some (One 20%Z) /\ rows_labelled t (la_labels a) (la_rows a) = [10%Z].
Proof.
  destruct (train_from_id ctrl_run 2) as [[t r]|] eqn:E; [|exfalso; revert E; vm_compute; discriminate].
  exists ctrl_run, 2%Z, r, (mk_la "f4" [] [2%Z] [10%Z]).
  split; [apply (@open_files_reachable [ctrl_file]); reflexivity|]. split; [apply distinct_kindsb_ok; reflexivity|].
  split; [apply passedb_ok; vm_compute; reflexivity|]. vm_compute in E. injection E as <- <-.
  split; [vm_compute; reflexivity|]. split; [vm_compute; reflexivity|]. split; vm_compute; reflexivity.
Qed.
Print Assumptions C30_control_unchecked_refuted.

(** ** C62: validating a run *)
Theorem C62_run_passes : forall (V : Type) (paths : list (string * res (faccess V))) cache,
  run_checks paths cache = Ok [] <->
  paths <> [] /\
  (exists d, mk_collection (usable (map snd paths)) None None = Ok d) /\
  (forall p r, In (p, r) paths -> exists f, r = Ok f /\ file_checks f = Ok [] /\
     exists tids ctrl inst, cache (h5_name (fa_file f)) = Some (tids, ctrl, inst) /\
       tids = fa_tids f /\ (forall s, In s ctrl <-> In s (fa_ctrl f)) /\ (forall s, In s inst <-> In s (fa_inst f))).
Proof.
  intros V paths cache. rewrite run_checked. split.
  - intros (H1 & H2 & H3). split; [assumption|]. split; [assumption|]. intros p r Hp. destruct (H3 p r Hp) as (f & E & Hc & Hm).
    exists f. split; [assumption|]. split; [assumption|]. now apply map_entry_checked.
  - intros (H1 & H2 & H3). split; [assumption|]. split; [assumption|]. intros p r Hp. destruct (H3 p r Hp) as (f & E & Hc & Hm).
    exists f. split; [assumption|]. split; [assumption|]. now apply map_entry_checked.
Qed.
Print Assumptions C62_run_passes.
(** Without an entry in the cached map for some file, validation never succeeds, however
    good the files are. *)
Theorem C62_no_cache_refuted : forall (V : Type) (paths : list (string * res (faccess V))) cache p f,
  In (p, Ok f) paths -> cache (h5_name (fa_file f)) = None -> exists e, run_checks paths cache = Err e.
Proof. exact @run_without_cache. Qed.
Print Assumptions C62_no_cache_refuted.
(** It is TypeError when nothing else is in the way. *)
Lemma map_entries_fail : forall (V : Type) cache (files : list (faccess V)) f, In f files -> cache (h5_name (fa_file f)) = None ->
  mapM (check_map_entry cache) files = Err ETypeError.
Proof.
  intros V cache files f. induction files as [|g files IH]; intros H E; [destruct H|]. cbn [mapM]. destruct H as [->|H].
  - unfold check_map_entry at 1. now rewrite E.
  - unfold check_map_entry at 1. destruct (cache (h5_name (fa_file g))) as [[[t c] i]|]; [|reflexivity]. cbn [bind]. now rewrite (IH H E).
Qed.
Theorem C62_no_cache_error : forall (V : Type) (paths : list (string * res (faccess V))) cache p f d,
  mk_collection (usable (map snd paths)) None None = Ok d ->
  (forall q g, In (q, Ok g) paths -> exists problems, file_checks g = Ok problems) ->
  In (p, Ok f) paths -> cache (h5_name (fa_file f)) = None -> run_checks paths cache = Err ETypeError.
Proof.
  intros V paths cache p f d Hm Hc Hin He. unfold run_checks. rewrite Hm. cbn [bind].
  assert (Hu : forall g, In g (usable (map snd paths)) <-> exists q, In (q, Ok g) paths).
  { intros g. unfold usable. rewrite in_flat_map. split.
    - intros (r & Hr & Hg). destruct r as [g'|]; [|destruct Hg]. destruct Hg as [->|[]]. apply in_map_iff in Hr as ([q r] & E & Hq). cbn in E. subst r. eauto.
    - intros (q & Hq). exists (Ok g). split; [apply in_map_iff; exists (q, Ok g); auto|now left]. }
  assert (M : exists r, mapM (fun g => let* l := file_checks g in Ok (map RFileProblem l)) (usable (map snd paths)) = Ok r).
  { assert (G : forall g, In g (usable (map snd paths)) -> exists l, file_checks g = Ok l) by (intros g Hg; apply Hu in Hg as [q Hq]; eauto).
    clear -G. induction (usable (map snd paths)) as [|g l IH]; [eexists; reflexivity|]. cbn [mapM].
    destruct (G g (or_introl eq_refl)) as [x ->]. cbn [bind]. destruct IH as [r ->]; [intros; apply G; now right|]. eexists; reflexivity. }
  destruct M as [r ->]. cbn [bind]. rewrite (@map_entries_fail V cache _ f); [reflexivity|apply Hu; eauto|exact He].
Qed.
Print Assumptions C62_no_cache_error.
Definition run_paths : list (string * res (faccess Z)) :=
  map (fun f => (h5_name f, fa_open f)) [file1; file2; file3].
Definition run_cache (n : string) : map_entry :=
  match dict_get n (map (fun f => (h5_name f, fa_of f)) [file1; file2; file3]) with
  | Some f => Some (fa_tids f, rev (fa_ctrl f), fa_inst f) | None => None end.
Example C62_example : run_checks run_paths run_cache = Ok [] /\
  run_checks run_paths (fun _ => None) = Err ETypeError /\
  run_checks (("x.h5", Err EOSError) :: run_paths) (fun n => Some ([10;11;12]%Z, ["XGM"], ["DET:out"])) =
    Ok [RNotOpened "x.h5" EOSError; RCacheWrong "seq1.h5"; RCacheWrong "cam.h5"].
Proof. split; [|split]; vm_compute; reflexivity. Qed.
