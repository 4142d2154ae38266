(** C101: the text printed by lsxfel. *)
From Verif Require Import Base PyStr M_Files M_Reader M_Cxi M_OpenRun M_Repr M_Crystfel M_Info M_InfoText M_Lsxfel M_LsText
  M_Stacking S_Open S_Stacking S_OpenRun S_Repr S_Info S_InfoText S_Lsxfel S_LsText L_Crystfel L_Repr L_Frame L_Lsxfel P_Info P_InfoText P_Lsxfel L_LsText L_LsText2.
Local Open Scope string_scope.
Local Open Scope list_scope.
Local Opaque int_repr str_of_int timedelta_str right_aligned.

Lemma run_info_example : forall (V : Type) pop np (d : dcoll V) i, run_info pop np d = Ok i ->
  forall n g s di, in_example i = Some (n, g, s, di) -> module_named s n g.
Proof.
  intros V pop np d i H n g s di E. destruct (@C74_info V pop np d i H) as (_ & _ & _ & _ & _ & _ & _ & _ & _ & _ & _ & _ & X).
  rewrite E in X. apply X.
Qed.
Lemma digits_one_line : forall s, all_digits s -> one_line s.
Proof. intros s D H. apply (digits_char D) in H. discriminate H. Qed.
Lemma lines_one_line : forall (V : Type) pop l, from (V := V) pop l -> plain_line l -> forall x, In x (lines_of l) -> one_line x.
Proof.
  intros V pop [n d|n|a b|p t|s|s|n p t|ind n a b c|i|n nt|n] F P x Hx; cbn [lines_of] in Hx.
  - destruct Hx as [<-|[]]. apply one_line_app; [intros X; destruct (P _ X) as [(Y & _) _]; cbn in Y; lia|]. apply one_line_app; [lit|].
    destruct F as (i & F & ->). destruct (filename_ok F) as (k & r & s & g & FP & _ & X).
    destruct X as [(num & _ & _ & -> & _)|[(name & num & (_ & _ & N & D & _) & K & _ & _ & _ & word & W & ->)|(_ & _ & -> & _)]]; cbn [descr_str]; [lit| |].
    + apply one_line_app; [destruct W as [[_ ->]|[[_ ->]|(_ & _ & ->)]]; lit|]. apply one_line_app; [lit|]. apply one_line_app; [destruct K as [-> | [-> | ->]]; lit|].
      apply one_line_app; [lit|]. exact (digits_one_line _ D).
    + assert (Q : forall s, (forall c, has_char c s -> ordinary c) -> one_line (str_repr s)).
      { clear. intros s H. destruct (quoted_repr H) as [_ ->]. apply one_line_app; [lit|]. apply one_line_app; [|lit]. intros X. destruct (H _ X) as (Y & _). cbn in Y. lia. }
      apply one_line_app; [lit|]. apply one_line_app; [apply Q, unknown_ordinary|]. apply one_line_app; [lit|]. apply one_line_app; [|lit].
      apply Q. intros c Hc. apply P. exact (basename_chars (source_chars FP Hc)).
  - destruct Hx as [<-|[<-|[]]]; [|lit]. apply one_line_app; [apply one_line_int|lit].
  - destruct Hx as [<-|[]]. repeat (apply one_line_app; [first [apply one_line_int|lit]|]). lit.
  - destruct Hx as [<-|[]]. repeat (apply one_line_app; [first [apply one_line_int|lit]|]). lit.
  - destruct Hx as [<-|Hx]; [apply one_line_app; [apply one_line_int|lit]|]. apply in_app_or in Hx as [Hx|[<-|[]]]; [|lit].
    apply in_map_iff in Hx as (y & <- & Hy). apply one_line_app; [lit|]. exact (P _ Hy).
  - destruct Hx as [<-|Hx]; [apply one_line_app; [apply one_line_int|lit]|]. apply in_app_or in Hx as [Hx|[<-|[]]]; [|lit].
    apply in_map_iff in Hx as (y & <- & Hy). apply one_line_app; [lit|]. exact (P _ Hy).
  - destruct Hx as [<-|[]]. repeat (apply one_line_app; [first [apply one_line_int|lit]|]). lit.
  - destruct Hx as [<-|[]]. apply one_line_app; [destruct F as [->| ->]; lit|]. apply one_line_app; [exact P|].
    repeat (apply one_line_app; [first [apply one_line_aligned|lit]|]). lit.
  - destruct F as (d & F). exact (text_one_line _ P (run_info_example _ _ _ _ _ F) _ Hx).
  - destruct Hx as [<-|Hx]; [|destruct nt; cbn in Hx; try contradiction; destruct Hx as [<-|[]]; lit].
    apply one_line_app; [exact P|]. apply one_line_app; [lit|]. destruct nt; lit.
  - destruct Hx as [<-|[]]. apply one_line_app; [exact P|lit].
Qed.
Lemma from_named : forall (V : Type) pop l, from (V := V) pop l -> named l.
Proof. intros V pop [] F; try exact I. exact F. Qed.

(** ** C101 *)
(** What is printed, up to the end or an exception, tells the values of all lines of output, in order: the numbers are decimal
    numerals, in the line of a run right-aligned; each list of sources has one line per source; the name comes first. *)
Theorem C101_text : forall (V : Type) pop pick_one (E : env (V := V)) cwd paths o r, main pop pick_one E cwd paths = (o, r) ->
  Forall plain_line o -> exists ts, Forall2 tells o ts /\ output o = print_lines (List.concat ts).
Proof.
  intros V pop pick_one E cwd paths o r H P. pose proof (wf_main pop pick_one E cwd paths) as F. unfold wf in F. rewrite H in F. cbn [fst] in F.
  exists (map lines_of o). split; [|apply output_lines]. clear H. induction o as [|l o IH]; [constructor|]. inversion P; inversion F; subst.
  constructor; [|auto]. apply line_tells; [|assumption]. eapply from_named; eassumption.
Qed.
Print Assumptions C101_text.

(** The text tells the lines apart: two calls, of any paths on any file systems, which print the same text have output the same
    values, line by line. *)
Theorem C101_unique : forall (V V' : Type) pop pop' pick_one pick_one' (E : env (V := V)) (E' : env (V := V')) cwd cwd' paths paths' o o' r r',
  main pop pick_one E cwd paths = (o, r) -> main pop' pick_one' E' cwd' paths' = (o', r') -> Forall plain_line o -> Forall plain_line o' ->
  output o = output o' -> Forall2 same_line o o'.
Proof.
  intros V V' pop pop' pick_one pick_one' E E' cwd cwd' paths paths' o o' r r' H H' P P' T.
  pose proof (wf_main pop pick_one E cwd paths) as F. unfold wf in F. rewrite H in F. cbn [fst] in F.
  pose proof (wf_main pop' pick_one' E' cwd' paths') as F'. unfold wf in F'. rewrite H' in F'. cbn [fst] in F'.
  rewrite !output_lines in T. apply lines_inj in T.
  - apply all_items; auto.
    + eapply Forall_impl; [|exact F]. intros l. apply from_named.
    + eapply Forall_impl; [|exact F']. intros l. apply from_named.
    + intros i j Hi Hj X. rewrite Forall_forall in F, F', P, P'. destruct (F _ Hi) as (d & D), (F' _ Hj) as (d' & D').
      apply (@C98_text V V' pop pop' true true d d' i j D D'); [exact (P _ Hi)|exact (P' _ Hj)|].
      change (info_text i) with (print_lines (text_lines i)). change (info_text j) with (print_lines (text_lines j)). now rewrite X.
  - intros x Hx. apply in_concat in Hx as (t & Ht & Hx). apply in_map_iff in Ht as (l & <- & Hl). rewrite Forall_forall in F, P.
    exact (lines_one_line V pop l (F _ Hl) (P _ Hl) x Hx).
  - intros x Hx. apply in_concat in Hx as (t & Ht & Hx). apply in_map_iff in Ht as (l & <- & Hl). rewrite Forall_forall in F', P'.
    exact (lines_one_line V' pop' l (F' _ Hl) (P' _ Hl) x Hx).
Qed.
Print Assumptions C101_unique.

(** The line of a run: its name, the number of trains in a shortest sequence of files, and the numbers of detector files and others. *)
Theorem C101_run : forall (V : Type) (E : env (V := V)) path indent o, NoDup (e_list E path) -> Forall (fun f => ~ has_char "/" f) (e_list E path) ->
  summarise_run E path indent = (o, Ok tt) ->
  exists b n d k x y z,
    output o = (indent ++ b ++ " : Run of " ++ x ++ " trains, with " ++ y ++ " detector files and " ++ z ++ " others" ++ newline)%string /\
    file_name path b /\ aligned 4 n x /\ aligned 3 d y /\ aligned 3 k z /\
    (exists g m, how_many (in_sequence E path g) m /\ (0 < m)%nat /\
       (forall g' m', how_many (in_sequence E path g') m' -> (0 < m')%nat -> (m <= m')%nat) /\
       how_many (fun t => exists f, in_sequence E path g f /\ train_in E path f t) n) /\
    how_many (fun f => In f (e_list E path) /\ data_file f /\ detector_file f) d /\
    how_many (fun f => In f (e_list E path) /\ data_file f /\ ~ detector_file f) k.
Proof.
  intros V E path indent o N F H. destruct (@C76_run V E path indent o N F H) as (n & d & k & b & -> & B & G & D & K).
  exists b, n, d, k, (right_aligned 4 n), (right_aligned 3 d), (right_aligned 3 k). split.
  - cbn [output fold_right line_text print_lines]. rewrite !app_assoc_s. reflexivity.
  - repeat (split; [first [assumption|apply aligned_ok]|]). exact K.
Qed.
Print Assumptions C101_run.

Example C101_example : exists o r, main any_pop any_first (ex_env [10; 11; 12]%Z) "/" ["prop/r0001"; "misc"; "notes.txt"; "nowhere"] = (o, r) /\
  Forall plain_line o /\
  py_split nl (output o) = ["r0001 : Run of    3 trains, with   2 detector files and   1 others"; "misc : Unrecognised directory";
    "notes.txt : Unrecognised file"; "nowhere : File/folder not found"; ""].
Proof.
  eexists _, _. split; [apply C76_several_example|]. split; [repeat constructor; lit|vm_compute; reflexivity].
Qed.
Example C101_proposal_example : py_split nl (output (fst (main any_pop any_first (ex_env [10; 11; 12]%Z) "/" ["prop"]))) =
  ["prop : Proposal data directory"; ""; "  r0001 : Run of    3 trains, with   2 detector files and   1 others"; ""].
Proof. vm_compute. reflexivity. Qed.
(** A file of a detector module, one with sources and one of an unknown source. *)
Definition file_env (d : dcoll Z) : env (V := Z) :=
  mk_env (fun _ => false) (fun _ => true) (fun _ => []) (fun p => p) (fun _ => Ok d) (fun _ => Err EOSError).
Example C101_file_example :
  py_split nl (output (fst (main any_pop any_first (file_env det_run) "/" ["run/CORR-R0001-AGIPD00-S00000.h5"]))) =
    ["CORR-R0001-AGIPD00-S00000.h5 : Corrected detector data from AGIPD module 00"; "4 trains"; ""; ("512 " ++ times ++ " 128 pixels")%string;
     "2 frames per train, 8 total"; ""] /\
  py_split nl (output (fst (main any_pop any_first (file_env det_run) "/" ["run/RAW-R0001-DA01-S00000.h5"]))) =
    ["RAW-R0001-DA01-S00000.h5 : Aggregated data"; "4 trains"; ""; "2 instrument sources"; "  -  CAM:daq"; "  -  SPB/DET/3CH0:xtdf"; "";
     "1 control sources"; "  -  XGM"; ""; ""] /\
  py_split nl (output (fst (main any_pop any_first (file_env det_run) "/" ["CORR-R0001-AGIPD00-S00000.h5"; "RAW-R0001-XYZ01-S00000.h5"]))) =
    ["CORR-R0001-AGIPD00-S00000.h5 : Corrected detector data from AGIPD module 00"; "  4 trains, 2 frames/train, 8 total frames";
     "RAW-R0001-XYZ01-S00000.h5 : ('Unknown data source ({})', 'XYZ01')"; ""].
Proof. repeat split; vm_compute; reflexivity. Qed.
