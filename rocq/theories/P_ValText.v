(** C102: the report printed by karabo-data-validate. *)
From Verif Require Import Base PyStr M_Files M_FilesMap M_Machinery M_Reader M_Cxi M_OpenRun M_Repr M_Crystfel M_Info M_InfoText M_Validation M_Validate M_ValText
  M_Stacking S_Open S_Stacking S_OpenRun S_Repr S_InfoText S_ValText L_Crystfel L_Repr L_Frame Ex_Files P_Validation P_InfoText P_Report.
Local Open Scope string_scope.
Local Open Scope list_scope.
Local Opaque int_repr str_of_int.

(** ** C102 *)
Lemma line_tells_lines : forall err dir cache l, tells_line err dir cache l (line_lines err dir cache l).
Proof.
  intros err dir cache l.
  assert (I : forall z, int_expr z (int_repr z)) by exact int_expr_repr.
  assert (N : forall n, nat_expr n (nat_repr n)) by (intros; apply int_expr_repr).
  destruct l as [[] p| | |p]; try constructor.
  destruct p as [path e| |[file k]|path].
  - apply tp_open.
  - apply tp_none.
  - destruct k; (apply tp_file; constructor; auto).
  - apply tp_cache.
Qed.
(** Each line of the report tells what was found: the message with its numbers as decimal numerals, and what it is about. *)
Theorem C102_text : forall err dir cache ls, exists ts, Forall2 (tells_line err dir cache) ls ts /\ report err dir cache ls = print_lines (List.concat ts).
Proof.
  intros err dir cache ls. exists (map (line_lines err dir cache) ls). split; [|reflexivity]. induction ls as [|l ls IH]; constructor; [|exact IH]. apply line_tells_lines.
Qed.
Print Assumptions C102_text.

Ltac ol := match goal with
  | |- one_line (append _ _) => apply one_line_app; ol
  | H : one_line ?x |- one_line ?x => exact H
  | H : int_expr _ ?x |- one_line ?x => exact (one_line_int_expr _ _ H)
  | H : nat_expr _ ?x |- one_line ?x => exact (one_line_int_expr _ _ H)
  | _ => lit
  end.
Lemma report_one_line : forall err dir cache l ts, tells_line err dir cache l ts -> plain_report err dir cache l -> forall x, In x ts -> one_line x.
Proof.
  intros err dir cache l ts T P x Hx. destruct T as [path|path| | |p ls T].
  - destruct Hx as [<-|[]]. cbn in P. ol.
  - destruct Hx as [<-|[]]. cbn in P. ol.
  - destruct Hx as [<-|[]]. ol.
  - destruct Hx as [<-|[]]. ol.
  - destruct T as [path e| |file k ls T|path].
    + destruct P as [P1 P2]. destruct Hx as [<-|[<-|[<-|[<-|[]]]]]; ol.
    + cbn in P. destruct Hx as [<-|[<-|[<-|[]]]]; ol.
    + destruct P as [P1 P2]. destruct Hx as [<-|Hx]; [lit|]. destruct T; cbn [plain_kind] in P2; repeat (destruct Hx as [<-|Hx]; [ol|]); destruct Hx.
    + destruct P as [P1 P2]. destruct Hx as [<-|[<-|[<-|[<-|[]]]]]; ol.
Qed.

(** A number with its text in front of a text without a digit at the start. *)
Ltac num E := apply int_repr_inj in E as [? E]; [|reflexivity|reflexivity].
Lemma one_report : forall err err' dir dir' cache cache' l l' r r',
  line_lines err dir cache l ++ r = line_lines err' dir' cache' l' ++ r' -> same_report err err' dir dir' cache cache' l l' /\ r = r'.
Proof.
  intros err err' dir dir' cache cache' l l' r r' E.
  destruct l as [[] p| | |[path e| |[file k]|path]], l' as [[] p'| | |[path' e'| |[file' k']|path']]; try discriminate E;
    try (destruct k; discriminate E); try (destruct k'; discriminate E).
  - injection E as -> E. split; [reflexivity|exact E].
  - injection E as -> E. split; [reflexivity|exact E].
  - injection E as E. split; [reflexivity|exact E].
  - injection E as E. split; [reflexivity|exact E].
  - injection E as E1 E2 E. cbn. auto.
  - injection E as E1 E. cbn. auto.
  - assert (S : file = file' /\ k = k' /\ r = r'); [|destruct S as (-> & -> & ->); split; reflexivity].
    unfold line_lines, problem_lines, problem_entries in E.
    destruct k, k'; try discriminate E; cbn in E; injection E; intros; unfold nat_repr in *;
      repeat match goal with H : (int_repr _ ++ _)%string = (int_repr _ ++ _)%string |- _ =>
        apply int_repr_inj in H as [? H]; [|reflexivity|reflexivity]; first [injection H as H | clear H] end;
      (split; [assumption|split; [|assumption]]); f_equal; first [reflexivity|assumption|lia].
  - injection E as E1 E2 E. cbn. auto.
Qed.

(** The report tells the problems apart: equal reports state the same problems of the same files, in the same order, with the
    same numbers. *)
Theorem C102_unique : forall err err' dir dir' cache cache' ls ls',
  Forall (plain_report err dir cache) ls -> Forall (plain_report err' dir' cache') ls' ->
  report err dir cache ls = report err' dir' cache' ls' -> Forall2 (same_report err err' dir dir' cache cache') ls ls'.
Proof.
  intros err err' dir dir' cache cache' ls ls' P P' E. unfold report in E.
  assert (O : forall err dir cache ls, Forall (plain_report err dir cache) ls -> forall x, In x (List.concat (map (line_lines err dir cache) ls)) -> one_line x).
  { clear. intros err dir cache ls P x Hx. apply in_concat in Hx as (t & Ht & Hx).
    apply in_map_iff in Ht as (l & <- & Hl). rewrite Forall_forall in P.
    exact (report_one_line _ _ _ _ _ (line_tells_lines err dir cache l) (P _ Hl) x Hx). }
  apply lines_inj in E; [|apply O; assumption|apply O; assumption]. clear O P P'. revert ls' E.
  induction ls as [|l ls IH]; intros [|l' ls'] E; cbn [map List.concat] in E.
  - constructor.
  - exfalso. destruct l' as [[] p| | |[path e| |[file k]|path]]; try discriminate E. destruct k; discriminate E.
  - exfalso. destruct l as [[] p| | |[path e| |[file k]|path]]; try discriminate E. destruct k; discriminate E.
  - apply one_report in E as [E1 E2]. constructor; auto.
Qed.
Print Assumptions C102_unique.

(** The report on a directory with a broken file, and on a file with a wrong index. *)
Definition ex_err (e : exn) : string := match e with EOSError => "Unable to open file" | _ => "?" end.
Example C102_example :
  (exists ls c, validate_command ex_listing ex_open (fun _ => run_cache) "/run/" = Ok (ls, c) /\ Forall (plain_report ex_err "/run/" "map.json") ls /\
     py_split nl (report ex_err "/run/" "map.json" ls) =
       ["Checking run directory: /run/"; "Validation failed!"; ""; "Could not open file"; "  error: Unable to open file"; "  file: /run/bad.h5"; ""]) /\
  (exists ls c, validate_command (mk_listing (fun _ => None) (fun _ => true)) (fun _ => fa_open bad_index) (fun _ => run_cache) "index.h5" = Ok (ls, c) /\
     Forall (plain_report ex_err "" "") ls /\
     py_split nl (report ex_err "" "" ls) =
       ["Checking file: index.h5"; "Validation failed!"; ""; "Index referring to data (12) outside dataset (6)"; "  dataset: INSTRUMENT/CAM:daq/data/pix"; "  file: index.h5"; "";
        "Index doesn't start at 0"; "  dataset: INDEX/CAM:daq/data"; "  file: index.h5"; "";
        "Gaps (2) in index, e.g. at 0 (1 + 1 < 3)"; "  dataset: INDEX/CAM:daq/data"; "  file: index.h5"; "";
        "Overlaps (1) in index, e.g. at 1 (3 + 1 > 3)"; "  dataset: INDEX/CAM:daq/data"; "  file: index.h5"; ""]) /\
  line_lines ex_err "" "" (LProblem (RFileProblem (mk_problem "one.h5" (PDifferentNumber "INDEX/CAM:daq/data" 3 1)))) =
    [""; "Index first & count have different number of entries"; "  count_shape: (1,)"; "  dataset: INDEX/CAM:daq/data"; "  file: one.h5"; "  first_shape: (3,)"].
Proof.
  split; [|split].
  - eexists _, _. split; [vm_compute; reflexivity|]. split; [repeat (apply Forall_cons; [first [exact I|split; lit|lit]|]); apply Forall_nil|vm_compute; reflexivity].
  - eexists _, _. split; [vm_compute; reflexivity|]. split; [repeat (apply Forall_cons; [first [exact I|split; lit|lit]|]); apply Forall_nil|vm_compute; reflexivity].
  - vm_compute. reflexivity.
Qed.
