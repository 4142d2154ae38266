(** get_dataframe (C68). *)
From Verif Require Import Base PyStr M_Files M_Machinery M_Reader M_Glob M_Select M_Series S_Reader S_Coll S_Avail S_Glob S_Writer S_Frame
  L_Check L_Check2 L_Frame L_Select Ex_Files P_Series.
Local Open Scope string_scope.
Local Open Scope list_scope.

(** The columns are the fields which can be read, without the timestamps unless they are asked for, each once; each column has
    the values of get_series and the name source/key without ".value". *)
Theorem C68_columns : forall (V : Type) (first : V -> V) (pulse : V -> Z) (d : dcoll V) fields ts cols, reachable d ->
  get_dataframe first pulse d fields ts = Ok cols ->
  exists d' fs, chosen d fields d' /\ (forall s k, In (s, k) fs <-> shown d' ts s k) /\ (separate_keys d' -> NoDup fs) /\
    Forall2 (fun f c => column_name (fst f) (snd f) (fst c) /\ get_series first pulse d' (fst f) (snd f) = Ok (snd c)) fs cols.
Proof.
  intros V first pulse d [a|] ts cols Hr H; cbn [get_dataframe] in H.
  - destruct (select d a) as [d'|] eqn:E; cbn [bind] in H; [|discriminate].
    destruct (@dataframe_columns V first pulse d' ts cols (reach_select a Hr E) H) as (_ & fs & H1 & H2 & H3). exists d', fs. auto.
  - destruct (@dataframe_columns V first pulse d ts cols Hr H) as (_ & fs & H1 & H2 & H3). exists d, fs. split; [reflexivity|auto].
Qed.
Print Assumptions C68_columns.

(** It exists as soon as there is a field and each has a series. *)
Theorem C68_exists : forall (V : Type) (first : V -> V) (pulse : V -> Z) (d d' : dcoll V) fields ts, reachable d -> chosen d fields d' ->
  (exists s k, shown d' ts s k) -> (forall s k, shown d' ts s k -> exists ser, get_series first pulse d' s k = Ok ser) ->
  exists cols, get_dataframe first pulse d fields ts = Ok cols.
Proof.
  intros V first pulse d d' [a|] ts Hr Hc H1 H2; cbn [chosen get_dataframe] in *.
  - rewrite Hc. cbn [bind]. apply dataframe_exists; try assumption. exact (reach_select a Hr Hc).
  - subst d'. apply dataframe_exists; assumption.
Qed.
Print Assumptions C68_exists.
Theorem C68_none : forall (V : Type) (first : V -> V) (pulse : V -> Z) (d d' : dcoll V) fields ts, reachable d -> chosen d fields d' ->
  (forall s k, ~ shown d' ts s k) -> get_dataframe first pulse d fields ts = Err EValueError.
Proof.
  intros V first pulse d d' [a|] ts Hr Hc H1; cbn [chosen get_dataframe] in *.
  - rewrite Hc. cbn [bind]. apply dataframe_none; [|assumption]. exact (reach_select a Hr Hc).
  - subst d'. apply dataframe_none; assumption.
Qed.
Print Assumptions C68_none.

(** No two columns have the same name. *)
Theorem C68_names : forall (V : Type) (first : V -> V) (pulse : V -> Z) (d d' : dcoll V) fields ts cols, reachable d -> chosen d fields d' ->
  plain_names d' -> separate_keys d' -> get_dataframe first pulse d fields ts = Ok cols -> NoDup (List.map fst cols).
Proof.
  intros V first pulse d d' [a|] ts cols Hr Hc Hp Hs H; cbn [chosen get_dataframe] in *.
  - rewrite Hc in H. cbn [bind] in H. exact (@dataframe_names V first pulse d' ts cols (reach_select a Hr Hc) H Hp Hs).
  - subst d'. exact (@dataframe_names V first pulse d ts cols Hr H Hp Hs).
Qed.
Print Assumptions C68_names.

(** Two control sources with values and timestamps, and a camera counter. *)
Definition frame_file : h5file Z := mk_h5 "da.h5" (Some [10;11]%Z) (Some "1.0") None
  (Some ["CONTROL/MOTOR"; "CONTROL/XGM"; "INSTRUMENT/CAM:daq/data"])
  [("MOTOR", mk_ix [0;1]%Z (IxCount [1;1]%Z)); ("XGM", mk_ix [0;1]%Z (IxCount [1;1]%Z)); ("CAM:daq/data", mk_ix [0;1]%Z (IxCount [1;1]%Z))]
  [("CONTROL/MOTOR/pos/value", dsZ [1;2]%Z); ("CONTROL/MOTOR/pos/timestamp", dsZ [8;9]%Z);
   ("CONTROL/XGM/flux/value", dsZ [3;4]%Z); ("CONTROL/XGM/flux/timestamp", dsZ [8;9]%Z); ("INSTRUMENT/CAM:daq/data/n", dsZ [5;6]%Z)].
Definition frame_run : dcoll Z := force no_coll (open_files [frame_file]).
Example C68_example : reachable frame_run /\ plain_names frame_run /\ separate_keys frame_run /\
  get_dataframe (fun v => v) (fun v => v) frame_run None false =
    Ok [("MOTOR/pos", [(10, None, 1); (11, None, 2)]); ("XGM/flux", [(10, None, 3); (11, None, 4)]); ("CAM:daq/data.n", [(10, None, 5); (11, None, 6)])]%Z /\
  get_dataframe (fun v => v) (fun v => v) frame_run (Some (SelGlobs [("X*", "*")])) true =
    Ok [("XGM/flux", [(10, None, 3); (11, None, 4)]); ("XGM/flux.timestamp", [(10, None, 8); (11, None, 9)])]%Z.
Proof.
  split; [apply (@open_files_reachable [frame_file]); reflexivity|]. split; [apply plain_namesb_ok; reflexivity|].
  split; [apply separate_keysb_ok; reflexivity|]. split; vm_compute; reflexivity.
Qed.
