(** Specification vocabulary for FilenameInfo and lsxfel. *)
From Verif Require Import Base M_Files M_Reader S_Open S_Stacking M_Stacking S_Info M_Info M_OpenRun M_Lsxfel.
Set Implicit Arguments.
Local Open Scope string_scope.
Local Open Scope list_scope.

(** [b] is the file name at the end of the path [p]. *)
Definition file_name (p b : string) : Prop := ~ has_char "/" b /\ (p = b \/ exists dir, p = (dir ++ "/" ++ b)%string).

(** A name like RAW-R0034-AGIPD00-S00000.h5: four parts with dashes between them, and an extension of three characters. *)
Definition four_parts (b kind run src seg : string) : Prop :=
  exists ext, b = (kind ++ "-" ++ run ++ "-" ++ src ++ "-" ++ seg ++ ext)%string /\ String.length ext = 3%nat /\
    ~ has_char "-" kind /\ ~ has_char "-" run /\ ~ has_char "-" src /\ ~ has_char "-" seg.

Definition capital (c : ascii) : Prop := (65 <= nat_of_ascii c <= 90)%nat.
Fixpoint capitals (s : string) : Prop := match s with "" => True | String c r => capital c /\ capitals r end.

(** AGIPD00: capital letters and a number at the start, the whole number. *)
Definition numbered (src name num : string) : Prop :=
  name <> "" /\ capitals name /\ num <> "" /\ all_digits num /\ exists rest, src = (name ++ num ++ rest)%string /\ no_digit_first rest.

Definition detector_kind (name : string) : Prop := name = "AGIPD" \/ name = "DSSC" \/ name = "LPD".

(** What FilenameInfo says about the name with the given kind and source. *)
Definition info_of (b kind src : string) (i : fname_info) : Prop :=
  fn_base i = b /\
  ((exists num, numbered src "DA" num /\ fn_detector i = false /\ fn_descr i = DText "Aggregated data" /\ fn_name i = None /\ fn_module i = None) \/
   (exists name num, numbered src name num /\ detector_kind name /\ fn_detector i = true /\ fn_name i = Some name /\ fn_module i = Some num /\
      exists word, ((kind = "RAW" /\ word = "Raw") \/ (kind = "CORR" /\ word = "Corrected") \/ (kind <> "RAW" /\ kind <> "CORR" /\ word = "?")) /\
        fn_descr i = DText (word ++ " detector data from " ++ name ++ " module " ++ num)%string) \/
   ((forall name num, numbered src name num -> name <> "DA" /\ ~ detector_kind name) /\
      fn_detector i = false /\ fn_descr i = DPair "Unknown data source ({})" src /\ fn_name i = None /\ fn_module i = None)).

(** The name of a file with data of a detector. *)
Definition detector_file (b : string) : Prop :=
  exists kind run src seg name num, four_parts b kind run src seg /\ numbered src name num /\ detector_kind name.

(** [f] is a segment of the sequence [g], like RAW-R0034-AGIPD00. *)
Definition seg_of (f g : string) : Prop :=
  g <> "" /\ ~ has_char (ascii_of_nat 10) g /\
  exists num rest, f = (g ++ "-S" ++ num ++ ".h5" ++ rest)%string /\ num <> "" /\ all_digits num.
Definition segment (f g : string) : Prop := seg_of f g /\ forall g', seg_of f g' -> (String.length g' <= String.length g)%nat.
Definition data_file (f : string) : Prop := exists g, segment f g.

(** How many different things there are with property [P]. *)
Definition how_many {A} (P : A -> Prop) (n : nat) : Prop := exists l, NoDup l /\ (forall x, In x l <-> P x) /\ List.length l = n.

(** A name of a run: r and digits at the start. *)
Definition run_like (f : string) : Prop := exists num rest, f = ("r" ++ num ++ rest)%string /\ num <> "" /\ all_digits num.
Definition h5_name_like (f : string) : Prop := exists a, f = (a ++ ".h5")%string.

Section Ls.
Context {V : Type}.
Variable pop : list Z -> Z.
Variable pick_one : list string -> string.
Variable E : env (V := V).

(** Train [t] is in the file. *)
Definition train_in (path f : string) (t : Z) : Prop := exists d, e_h5 E (M_OpenRun.path_join path f) = Ok d /\ In t (dc_tids d).
Definition in_sequence (path g f : string) : Prop := In f (e_list E path) /\ segment f g.

Definition recognised (p : string) : Prop :=
  (e_isdir E p = true /\ exists f, In f (e_list E p) /\ (h5_name_like f \/ run_like f)) \/
  (e_isdir E p = false /\ e_isfile E p = true /\ h5_name_like p).
(** The lines for the runs in a directory. *)
Definition runs_listed (dir : string) (o : list line) : Prop :=
  exists runs lines, (forall f, In f runs <-> In f (e_list E dir) /\ run_like f /\ e_isdir E (path_join dir f) = true) /\
    Forall2 (fun f l => summarise_run E (path_join dir f) "  " = (l, Ok tt)) runs lines /\ o = List.concat lines.
Definition runs_listed_in_order (dir : string) (o : list line) : Prop :=
  exists runs lines, StronglySorted name_le runs /\ (forall f, In f runs <-> In f (e_list E dir) /\ run_like f /\ e_isdir E (path_join dir f) = true) /\
    Forall2 (fun f l => summarise_run E (path_join dir f) "  " = (l, Ok tt)) runs lines /\ o = List.concat lines.

(** What is printed for one of several paths. *)
Definition printed_for (p : string) (o : list line) : Prop :=
  let h5 := exists f, In f (e_list E p) /\ h5_name_like f in
  let runs := exists f, In f (e_list E p) /\ run_like f in
  exists b, file_name p b /\
  ((e_isdir E p = true /\ h5 /\ summarise_run E p "" = (o, Ok tt)) \/
   (e_isdir E p = true /\ ~ h5 /\ runs /\ exists o', o = LNote b Proposal :: o' /\ runs_listed p o') \/
   (e_isdir E p = true /\ ~ h5 /\ ~ runs /\ o = [LNote b BadDir]) \/
   (e_isdir E p = false /\ e_isfile E p = true /\ h5_name_like p /\ summarise_file pop pick_one E p = (o, Ok tt)) \/
   (e_isdir E p = false /\ e_isfile E p = true /\ ~ h5_name_like p /\ o = [LNote b BadFile]) \/
   (e_isdir E p = false /\ e_isfile E p = false /\ o = [LNote p NotFound])).

(** What is printed for a single path, and the exit code. *)
Definition printed_alone (p : string) (o : list line) (c : Z) : Prop :=
  let h5 := exists f, In f (e_list E p) /\ h5_name_like f in
  let runs := exists f, In f (e_list E p) /\ run_like f in
  exists b, file_name (e_abspath E (rstrip_slash p)) b /\
  ((e_isdir E p = true /\ h5 /\ c = 0%Z /\ exists b' d i, file_name p b' /\ e_rundir E p = Ok d /\ run_info pop true d = Ok i /\ o = [LNote b' RunDir; LInfo i]) \/
   (e_isdir E p = true /\ ~ h5 /\ runs /\ c = 0%Z /\ exists o', o = LNote b ProposalData :: o' /\ runs_listed_in_order p o') \/
   (e_isdir E p = true /\ ~ h5 /\ ~ runs /\ e_isdir E (path_join p "raw") = true /\ c = 0%Z /\
      exists o', o = LNote b Proposal :: LRaw b :: o' /\ runs_listed_in_order (path_join p "raw") o') \/
   (e_isdir E p = true /\ ~ h5 /\ ~ runs /\ e_isdir E (path_join p "raw") = false /\ c = 0%Z /\ o = [LNote b BadDir]) \/
   (e_isdir E p = false /\ e_isfile E p = true /\ h5_name_like p /\ c = 0%Z /\ describe_file pop pick_one E p = (o, Ok tt)) \/
   (e_isdir E p = false /\ e_isfile E p = true /\ ~ h5_name_like p /\ c = 2%Z /\ o = [LNote b BadFile]) \/
   (e_isdir E p = false /\ e_isfile E p = false /\ c = 2%Z /\ o = [LNote p NotFound])).

End Ls.
