(** C81, C82: what validation reports, which files are validated, and the exit status of karabo-data-validate. *)
From Verif Require Import Base PyStr M_Files M_Machinery M_Reader M_Glob M_OpenRun M_Validation M_Validate
  S_Reader S_Open S_OpenRun S_Glob S_Validation S_Report L_Base L_Glob L_OpenRun L_MakeCxi L_Report L_Validate Ex_Files P_Validation.
Local Open Scope string_scope.
Local Open Scope list_scope.

(** ** C81: the reports are true and complete *)
Theorem C81_reports : forall (V : Type) (fa : faccess V), checkable fa ->
  exists ps, file_checks fa = Ok ps /\ forall p, In p ps <-> pr_file p = h5_name (fa_file fa) /\ is_wrong fa (pr_kind p).
Proof. exact @reports_right. Qed.
Print Assumptions C81_reports.
(** A different number of first rows and counts is reported whenever the checks finish. *)
Theorem C81_ragged : forall (V : Type) (fa : faccess V) s k ks G c ps,
  In s (fa_inst fa) -> fa_get_keys fa s = Ok ks -> In k ks ->
  dict_get (index_key false s k) (h5_index (fa_file fa)) = Some G -> ix_more G = IxCount c ->
  let n := List.length (fa_tids fa) in
  Nat.min n (List.length (ix_first G)) <> Nat.min n (List.length c) -> file_checks fa = Ok ps ->
  In (mk_problem (h5_name (fa_file fa)) (PDifferentNumber ("INDEX/" ++ index_key false s k)%string (Nat.min n (List.length (ix_first G))) (Nat.min n (List.length c)))) ps.
Proof. exact @ragged_reported. Qed.
Print Assumptions C81_ragged.
Theorem C81_run : forall (V : Type) (paths : list (string * res (faccess V))) cache d,
  mk_collection (usable (map snd paths)) None None = Ok d ->
  (forall p f, In (p, Ok f) paths -> checkable f /\ cache (h5_name (fa_file f)) <> None) ->
  exists ps, run_checks paths cache = Ok ps /\ forall rp, In rp ps <->
    match rp with
    | RNotOpened p e => In (p, Err e) paths
    | RNoUsableFiles => forall p f, ~ In (p, Ok f) paths
    | RFileProblem q => exists p f, In (p, Ok f) paths /\ pr_file q = h5_name (fa_file f) /\ is_wrong f (pr_kind q)
    | RCacheWrong nm => exists p f, In (p, Ok f) paths /\ nm = h5_name (fa_file f) /\ entry_wrong cache f
    end.
Proof. exact @run_reports. Qed.
Print Assumptions C81_run.

(** One count for three first rows is spread over all of them: the checks finish. *)
Definition one_count : h5file Z := mk_h5 "one.h5" (Some [1;2;3]%Z) (Some "1.0") None (Some ["INSTRUMENT/CAM:daq/data"])
  [("CAM:daq/data", mk_ix [0;1;2]%Z (IxCount [1]%Z))] [("INSTRUMENT/CAM:daq/data/pix", dsZ [50;51;52]%Z)].
Example C81_example :
  (checkable (fa_of bad_tids) /\ is_wrong (fa_of bad_tids) PZeroesBefore /\ is_wrong (fa_of bad_tids) (PNotIncreasing 1 3 3)) /\
  (checkable (fa_of bad_index) /\ is_wrong (fa_of bad_index) (PGaps "INDEX/CAM:daq/data" 2 0 1 1 3) /\ ~ is_wrong (fa_of bad_index) PZeroesBefore) /\
  (checkable (fa_of file1) /\ forall pk, ~ is_wrong (fa_of file1) pk) /\
  file_checks (fa_of one_count) = Ok [mk_problem "one.h5" (PDifferentNumber "INDEX/CAM:daq/data" 3 1)].
Proof.
  assert (C1 : checkable (fa_of bad_tids)) by (apply checkableb_ok; vm_compute; reflexivity).
  assert (C2 : checkable (fa_of bad_index)) by (apply checkableb_ok; vm_compute; reflexivity).
  assert (C3 : checkable (fa_of file1)) by (apply checkableb_ok; vm_compute; reflexivity).
  destruct (C81_reports _ _ C1) as (p1 & E1 & I1). vm_compute in E1. injection E1 as <-.
  destruct (C81_reports _ _ C2) as (p2 & E2 & I2). vm_compute in E2. injection E2 as <-.
  destruct (C81_reports _ _ C3) as (p3 & E3 & I3). vm_compute in E3. injection E3 as <-.
  split; [|split; [|split]].
  - split; [exact C1|]. split; [apply (I1 (mk_problem "tids.h5" PZeroesBefore)); now left|apply (I1 (mk_problem "tids.h5" (PNotIncreasing 1 3 3))); right; now left].
  - split; [exact C2|]. split; [apply (I2 (mk_problem "index.h5" (PGaps "INDEX/CAM:daq/data" 2 0 1 1 3))); cbn; auto|].
    intros H. destruct (proj2 (I2 (mk_problem "index.h5" PZeroesBefore))) as [X|[X|[X|[X|[]]]]]; try discriminate X. split; [reflexivity|exact H].
  - split; [exact C3|]. intros pk H. exact (proj2 (I3 (mk_problem (h5_name (fa_file (fa_of file1))) pk)) (conj eq_refl H)).
  - vm_compute. reflexivity.
Qed.
Example C81_run_example : (exists d, mk_collection (usable (map snd (("x.h5", Err EOSError) :: run_paths))) None None = Ok d) /\
  (forall p f, In (p, Ok f) (("x.h5", Err EOSError) :: run_paths) -> checkable f /\ run_cache (h5_name (fa_file f)) <> None) /\
  run_checks (("x.h5", Err EOSError) :: run_paths) run_cache = Ok [RNotOpened "x.h5" EOSError].
Proof.
  split; [eexists; vm_compute; reflexivity|]. split; [|vm_compute; reflexivity].
  intros p f [E|[E|[E|[E|[]]]]]; [discriminate E| | |]; (assert (X := f_equal snd E); cbn [snd] in X; clear E; vm_compute in X; injection X as <-; split; [apply checkableb_ok; vm_compute; reflexivity|vm_compute; discriminate]).
Qed.

(** ** C82: which files, and the exit status *)
Theorem C82_run_files : forall fs path include names, ls_names fs path = Some names ->
  (valid_pattern include -> (exists name, In name names /\ ends ".h5" name /\ glob include name) ->
     exists files, run_directory_files fs path include = Ok files /\
       forall p, In p files <-> exists name, p = path_join path name /\ In name names /\ ends ".h5" name /\ glob include name) /\
  (valid_pattern include -> (forall name, In name names -> ends ".h5" name -> ~ glob include name) -> run_directory_files fs path include = Err EException) /\
  (~ valid_pattern include -> exists e, run_directory_files fs path include = Err e).
Proof. exact run_files_ok. Qed.
Print Assumptions C82_run_files.
Theorem C82_validated : forall fs d k names, plain_dir d -> ls_names fs d = Some names ->
  exists files, validated_files fs (d ++ str_repeat "/" k) = Ok files /\ (forall p, In p files <-> dir_file fs d p) /\
    (NoDup names -> (forall x, In x names -> ~ has_char "/" x) -> NoDup files).
Proof. exact validated_files_are. Qed.
Print Assumptions C82_validated.
Theorem C82_directory : forall (V : Type) fs (open : string -> res (faccess V)) cache d k names files c,
  plain_dir d -> ls_names fs d = Some names -> ls_names fs (d ++ str_repeat "/" k) = Some names ->
  validated_files fs (d ++ str_repeat "/" k) = Ok files -> mk_collection (usable (map open files)) None None = Ok c ->
  (forall p f, dir_file fs d p -> open p = Ok f -> checkable f /\ cache (d ++ str_repeat "/" k)%string (h5_name (fa_file f)) <> None) ->
  exists lines status, validate_command fs open cache (d ++ str_repeat "/" k) = Ok (lines, status) /\
    (status = 0%Z \/ status = 1%Z) /\
    (status = 0%Z <-> forall rp, ~ dir_wrong fs open (cache (d ++ str_repeat "/" k)%string) d rp) /\
    (In LNoProblems lines <-> status = 0%Z) /\ (In LFailed lines <-> status = 1%Z) /\
    (forall rp, In (LProblem rp) lines <-> dir_wrong fs open (cache (d ++ str_repeat "/" k)%string) d rp).
Proof. exact @command_dir. Qed.
Print Assumptions C82_directory.
Theorem C82_file : forall (V : Type) fs (open : string -> res (faccess V)) cache path fa c,
  ls_names fs path = None -> open path = Ok fa -> mk_collection [fa] None None = Ok c -> checkable fa ->
  exists lines status, validate_command fs open cache path = Ok (lines, status) /\
    (status = 0%Z \/ status = 1%Z) /\
    (status = 0%Z <-> forall pk, ~ is_wrong fa pk) /\
    (In LNoProblems lines <-> status = 0%Z) /\ (In LFailed lines <-> status = 1%Z) /\
    (forall rp, In (LProblem rp) lines <-> exists pk, rp = RFileProblem (mk_problem (h5_name (fa_file fa)) pk) /\ is_wrong fa pk).
Proof. exact @command_file. Qed.
Print Assumptions C82_file.

(** A directory with three data files, a broken one, a text file and a hidden file. *)
Definition ex_listing : listing := mk_listing
  (fun p => if String.eqb p "/run" || String.eqb p "/run/" then Some ["seq1.h5"; "notes.txt"; "bad.h5"; ".old.h5"; "cam.h5"]
            else if String.eqb p "/r[1]" then Some ["bad.h5"]
            else if String.eqb p "/r1" then Some ["seq1.h5"]
            else if String.eqb p "/" then Some ["run"; "r[1]"; "r1"] else None)
  (fun _ => true).
Definition ex_open (p : string) : res (faccess Z) :=
  if String.eqb p "/run/seq1.h5" || String.eqb p "/r1/seq1.h5" then fa_open file1
  else if String.eqb p "/run/cam.h5" then fa_open file3 else if String.eqb p "/run/.old.h5" then fa_open bad_index else Err EOSError.
Example C82_example :
  (plain_dir "/run" /\ ls_names ex_listing "/run" = ls_names ex_listing ("/run" ++ str_repeat "/" 1)) /\
  validated_files ex_listing "/run/" = Ok ["/run/seq1.h5"; "/run/bad.h5"; "/run/cam.h5"] /\
  (exists c, mk_collection (usable (map ex_open ["/run/seq1.h5"; "/run/bad.h5"; "/run/cam.h5"])) None None = Ok c) /\
  (forall p f, dir_file ex_listing "/run" p -> ex_open p = Ok f -> checkable f /\ run_cache (h5_name (fa_file f)) <> None) /\
  validate_command ex_listing ex_open (fun _ => run_cache) "/run/" = Ok ([LChecking true "/run/"; LFailed; LProblem (RNotOpened "/run/bad.h5" EOSError)], 1%Z) /\
  validate_command ex_listing ex_open (fun _ => run_cache) "/run/seq1.h5" = Ok ([LChecking false "/run/seq1.h5"; LNoProblems], 0%Z) /\
  run_directory_files ex_listing "/run" "*[qm]*" = Ok ["/run/seq1.h5"; "/run/cam.h5"] /\
  run_directory_files ex_listing "/run" "R*" = Err EException.
Proof.
  assert (PD : plain_dir "/run").
  { split; [discriminate|]. split.
    - intros q E. assert (X : ends_with "/" "/run" = true) by (apply ends_slash; eauto). discriminate X.
    - intros c Hc H. cbn in H. destruct Hc as [<-|[<-|[<-|[]]]]; repeat destruct H as [H|H]; try discriminate H; try destruct H. }
  assert (VF : validated_files ex_listing "/run/" = Ok ["/run/seq1.h5"; "/run/bad.h5"; "/run/cam.h5"]) by (vm_compute; reflexivity).
  split; [split; [exact PD|reflexivity]|]. split; [exact VF|]. split; [eexists; vm_compute; reflexivity|]. split.
  - intros p f Hp. destruct (C82_validated ex_listing "/run" 1 _ PD eq_refl) as (files & E & I & _). change ("/run" ++ str_repeat "/" 1)%string with "/run/" in E. rewrite VF in E. injection E as <-.
    apply I in Hp as [<-|[<-|[<-|[]]]]; intros X; vm_compute in X; try discriminate X; injection X as <-; (split; [apply checkableb_ok; vm_compute; reflexivity|vm_compute; discriminate]).
  - split; [vm_compute; reflexivity|]. split; [vm_compute; reflexivity|]. split; vm_compute; reflexivity.
Qed.
(** A file whose name starts with a dot is opened as part of the run but not validated: here the run "validates" although
    RunDirectory would use a file whose index is wrong. *)
Theorem C82_hidden_refuted : exists fs d files files', plain_dir d /\
  run_directory_files fs d "*" = Ok files /\ validated_files fs d = Ok files' /\ In "/run/.old.h5" files /\ ~ In "/run/.old.h5" files'.
Proof.
  exists ex_listing, "/run". do 2 eexists. split; [exact (proj1 (proj1 C82_example))|]. split; [vm_compute; reflexivity|]. split; [vm_compute; reflexivity|].
  split; [vm_compute; tauto|]. intros H. repeat destruct H as [H|H]; try discriminate H. destruct H.
Qed.
Print Assumptions C82_hidden_refuted.
(** A directory whose name contains [*], [?] or [\[]: the files of other directories are validated in place of its own. *)
Theorem C82_magic_refuted : exists fs d files, ls_names fs d = Some ["bad.h5"] /\ validated_files fs d = Ok files /\
  ~ In (path_join d "bad.h5") files /\ In "/r1/seq1.h5" files.
Proof.
  exists ex_listing, "/r[1]". eexists. split; [reflexivity|]. split; [vm_compute; reflexivity|]. split; [|vm_compute; tauto].
  intros H. vm_compute in H. destruct H as [H|[]]. discriminate H.
Qed.
Print Assumptions C82_magic_refuted.
