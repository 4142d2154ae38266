(** The table get_dataframe returns (C79). *)
From Verif Require Import Base PyStr M_Files M_Machinery M_Reader M_Glob M_Select M_Series M_Frame S_Reader S_Coll S_Avail S_Glob S_Series S_Writer S_Frame S_Frame2
  L_Check L_Check2 L_Base L_GetArray L_Array2 L_Series L_Frame L_Frame2 L_Select Ex_Files P_Series P_Frame.
Local Open Scope string_scope.
Local Open Scope list_scope.

(** Each column shows the series of its field: at every row the value the series has there, NaN where it has none.  The rows are
    the labels of all series and no others.  If the series do not all have the same labels, the rows are in order of train and
    pulse, each once. *)
Theorem C79_table : forall (V : Type) (first : V -> V) (pulse : V -> Z) (d : dcoll V) fields ts idx tcols, reachable d ->
  dataframe first pulse d fields ts = Ok (idx, tcols) ->
  exists d' fs cols, chosen d fields d' /\ fs <> [] /\ (forall s k, In (s, k) fs <-> shown d' ts s k) /\ (separate_keys d' -> NoDup fs) /\
    Forall2 (fun f c => column_name (fst f) (snd f) (fst c) /\ get_series first pulse d' (fst f) (snd f) = Ok (snd c)) fs cols /\
    Forall2 (shows idx) cols tcols /\
    (forall a, In a idx <-> exists c, In c cols /\ In a (labels_of (snd c))) /\
    ((forall c, In c cols -> labels_of (snd c) = idx) \/
     (StronglySorted label_before idx /\ forall c, In c cols -> NoDup (labels_of (snd c)))).
Proof.
  intros V first pulse d fields ts idx tcols Hr H. unfold dataframe in H. apply bind_ok in H as (cols & Hc & H).
  destruct (@C68_columns V first pulse d fields ts cols Hr Hc) as (d' & fs & X1 & X2 & X3 & X4).
  destruct (concat_columns_spec H) as (Y0 & Y1 & Y2 & Y3). exists d', fs, cols. repeat (split; [assumption|]).
  split; [intros ->; inversion X4; subst; congruence|]. repeat (split; [assumption|]). assumption.
Qed.
Print Assumptions C79_table.

(** The table exists if the series exist, and either have all the same labels, or none has a repeated label and they are all
    by train or all by train and pulse. *)
Theorem C79_exists : forall (V : Type) (first : V -> V) (pulse : V -> Z) (d d' : dcoll V) fields ts, reachable d -> chosen d fields d' ->
  (exists s k, shown d' ts s k) -> (forall s k, shown d' ts s k -> exists ser, get_series first pulse d' s k = Ok ser) ->
  (exists l, forall s k ser, shown d' ts s k -> get_series first pulse d' s k = Ok ser -> labels_of ser = l) \/
  (((forall s k ser a, shown d' ts s k -> get_series first pulse d' s k = Ok ser -> In a (labels_of ser) -> snd a = None) \/
    (forall s k ser a, shown d' ts s k -> get_series first pulse d' s k = Ok ser -> In a (labels_of ser) -> snd a <> None)) /\
   forall s k ser, shown d' ts s k -> get_series first pulse d' s k = Ok ser -> NoDup (labels_of ser)) ->
  exists t, dataframe first pulse d fields ts = Ok t.
Proof.
  intros V first pulse d d' fields ts Hr Hch Hne Hser H.
  destruct (@C68_exists V first pulse d d' fields ts Hr Hch Hne Hser) as (cols & Hc). unfold dataframe. rewrite Hc. cbn [bind].
  destruct (@C68_columns V first pulse d fields ts cols Hr Hc) as (d2 & fs & X1 & X2 & X3 & X4).
  assert (d2 = d') by (destruct fields; cbn in *; congruence). subst d2.
  assert (E : forall c, In c cols -> exists s k, shown d' ts s k /\ get_series first pulse d' s k = Ok (snd c)).
  { intros c Hi. destruct (Forall2_In_r X4 Hi) as ([s k] & F & _ & G). exists s, k. split; [now apply X2|exact G]. }
  apply concat_columns_exists.
  - intros ->. inversion X4; subst. destruct Hne as (s & k & Hsk). now apply X2 in Hsk.
  - destruct H as [(l & H)|[K N]].
    + left. exists l. intros c Hi. destruct (E c Hi) as (s & k & A & B). exact (H s k _ A B).
    + right. split.
      * destruct K as [K|K]; [left|right]; intros c a Hi Ha; destruct (E c Hi) as (s & k & A & B); exact (K s k _ a A B Ha).
      * intros c Hi. destruct (E c Hi) as (s & k & A & B). exact (N s k _ A B).
Qed.
Print Assumptions C79_exists.

(** A repeated label (a pulse ID twice in a train) next to a series with other labels: ValueError, no table. *)
Theorem C79_repeated_refuted : forall (V : Type) (first : V -> V) (pulse : V -> Z) (d d' : dcoll V) fields ts cols, reachable d -> chosen d fields d' ->
  get_dataframe first pulse d fields ts = Ok cols -> same_kind cols ->
  forall s k ser s' k' ser', shown d' ts s k -> get_series first pulse d' s k = Ok ser -> ~ NoDup (labels_of ser) ->
    shown d' ts s' k' -> get_series first pulse d' s' k' = Ok ser' -> labels_of ser' <> labels_of ser ->
    dataframe first pulse d fields ts = Err EValueError.
Proof.
  intros V first pulse d d' fields ts cols Hr Hch Hc K s k ser s' k' ser' A B N A' B' D. unfold dataframe. rewrite Hc. cbn [bind].
  destruct (@C68_columns V first pulse d fields ts cols Hr Hc) as (d2 & fs & X1 & X2 & X3 & X4).
  assert (d2 = d') by (destruct fields; cbn in *; congruence). subst d2. apply X2 in A, A'.
  destruct (Forall2_In_l X4 A) as (c & C1 & _ & C2). destruct (Forall2_In_l X4 A') as (c' & C1' & _ & C2'). cbn [fst snd] in *.
  rewrite B in C2. injection C2 as ->. rewrite B' in C2'. injection C2' as ->. exact (concat_columns_dup K C1 C1' N D).
Qed.
Print Assumptions C79_repeated_refuted.

(** In terms of the files.  The column of a field shows at train [t] the value stored for [t], and NaN if nothing is stored;
    with several values in a train, at pulse [p] those with this pulse ID.  Every row is of a train of the collection (after the
    selection) which some file has. *)
Theorem C79_cells : forall (V : Type) (first : V -> V) (pulse : V -> Z) (d d' : dcoll V) fields ts idx tcols s k, reachable d -> chosen d fields d' ->
  dataframe first pulse d fields ts = Ok (idx, tcols) -> shown d' ts s k ->
  distinct_kinds d' -> good_files d' -> good_index d' s k -> index_from_zero d' s k -> (In s (dc_ctrl d') -> good_ctrl d' s) ->
  exists name cells, In (name, cells) tcols /\ column_name s k name /\ List.length cells = List.length idx /\
    (forall f t rows, holds d' f s t -> In t (dc_tids d') -> ~ (In s (dc_inst d') /\ multi_rows f s k) ->
       file_rows (fa_file f) (str_in s (dc_ctrl d')) s k t rows ->
       (rows <> [] /\ at_label (t, None) (combine idx cells) = map Some rows) \/
       (rows = [] /\ Forall (eq None) (at_label (t, None) (combine idx cells)))) /\
    (forall f t rows prows p, holds d' f s t -> In t (dc_tids d') -> In s (dc_inst d') -> multi_rows f s k ->
       file_rows (fa_file f) (str_in s (dc_ctrl d')) s k t rows -> file_rows (fa_file f) false s (pulse_key k) t prows ->
       let there := filter (fun pv => pulse (fst pv) =? p)%Z (combine prows rows) in
       (there <> [] /\ at_label (t, Some p) (combine idx cells) = map (fun pv => Some (first (snd pv))) there) \/
       (there = [] /\ Forall (eq None) (at_label (t, Some p) (combine idx cells)))) /\
    (forall t q, ~ (In t (dc_tids d') /\ exists f, holds d' f s t) -> Forall (eq None) (at_label (t, q) (combine idx cells))).
Proof.
  intros V first pulse d d' fields ts idx tcols s k Hr Hch H Hsh K G I I0 C.
  assert (Hr' : reachable d').
  { destruct fields as [a|]; cbn in Hch; [exact (reach_select a Hr Hch)|now subst]. }
  destruct (@C79_table V first pulse d fields ts idx tcols Hr H) as (d2 & fs & cols & X1 & _ & X2 & _ & X4 & Y2 & Y1 & _).
  assert (d2 = d') by (destruct fields; cbn in *; congruence). subst d2.
  apply X2 in Hsh. destruct (Forall2_In_l X4 Hsh) as ([cn ser] & C1 & C2 & C3). cbn [fst snd] in *.
  destruct (Forall2_In_l Y2 C1) as ([name cells] & T1 & T2).
  assert (Sub : forall b, In b (labels_of ser) -> In b idx) by (intros b Hb; apply Y1; exists (cn, ser); auto).
  destruct (@C22_series_rows V first pulse d' s k ser Hr' K G I I0 C C3) as [S1 S2].
  exists name, cells. split; [exact T1|]. pose proof T2 as (N & L & _). cbn [fst snd] in N, L.
  split; [now rewrite N|]. split; [exact L|]. split; [|split].
  - intros f t rows Hh Ht Hm Hfr. destruct (S1 f t Hh Ht) as (rows' & Hfr' & S). rewrite (L_Trains.file_rows_fun Hfr' Hfr) in S.
    destruct S as [(E & P & _)|(_ & E1 & E2 & _)]; [|exfalso; apply Hm; auto].
    rewrite <- E. rewrite <- (plain_values P). destruct (shows_at (t, None) T2 Sub) as [[A B]|[A B]]; auto.
  - intros f t rows prows p Hh Ht Hi Hm Hfr Hpr. destruct (S1 f t Hh Ht) as (rows' & Hfr' & S). rewrite (L_Trains.file_rows_fun Hfr' Hfr) in S.
    destruct S as [(_ & _ & E)|(E & _ & _ & prows' & Hpr' & P)]; [exfalso; apply E; auto|].
    rewrite (L_Trains.file_rows_fun Hpr' Hpr) in P. cbn zeta.
    assert (Q : at_label (t, Some p) ser = map (fun pv => first (snd pv)) (filter (fun pv => pulse (fst pv) =? p)%Z (combine prows rows))).
    { rewrite pulse_values, P, E. clear. revert rows. induction prows as [|x l IH]; intros [|y r]; cbn; try reflexivity.
      unfold opt_eqb at 1. cbn [fst]. destruct (pulse x =? p)%Z; cbn; [f_equal|]; apply IH. }
    destruct (shows_at (t, Some p) T2 Sub) as [[A B]|[A B]]; cbn [fst snd] in A, B; rewrite Q in A; [left|right].
    + rewrite Q, map_map in B. cbn [snd] in B. split; [|exact B]. intros Z. now rewrite Z in A.
    + split; [|exact B]. now apply map_eq_nil in A.
  - intros t q Hn. apply S2 in Hn. destruct (@no_values V t q _ Hn) as [A B].
    destruct (shows_at (t, q) T2 Sub) as [[A' _]|[_ B']]; [exfalso; apply A'; exact A|exact B'].
Qed.
Print Assumptions C79_cells.
Theorem C79_rows : forall (V : Type) (first : V -> V) (pulse : V -> Z) (d d' : dcoll V) fields ts idx tcols t q, reachable d -> chosen d fields d' ->
  dataframe first pulse d fields ts = Ok (idx, tcols) -> distinct_kinds d' -> good_files d' ->
  (forall s k, shown d' ts s k -> good_index d' s k /\ index_from_zero d' s k /\ (In s (dc_ctrl d') -> good_ctrl d' s)) ->
  In (t, q) idx -> In t (dc_tids d') /\ exists f s k, shown d' ts s k /\ holds d' f s t.
Proof.
  intros V first pulse d d' fields ts idx tcols t q Hr Hch H K G HI Hq.
  assert (Hr' : reachable d').
  { destruct fields as [a|]; cbn in Hch; [exact (reach_select a Hr Hch)|now subst]. }
  destruct (@C79_table V first pulse d fields ts idx tcols Hr H) as (d2 & fs & cols & X1 & _ & X2 & _ & X4 & Y2 & Y1 & _).
  assert (d2 = d') by (destruct fields; cbn in *; congruence). subst d2.
  apply Y1 in Hq as (c & Hc & Hq). destruct (Forall2_In_r X4 Hc) as ([s k] & F & _ & E). cbn [fst snd] in *. apply X2 in F.
  destruct (HI s k F) as (I & I0 & C).
  destruct (@C22_series_rows V first pulse d' s k (snd c) Hr' K G I I0 C E) as [S1 S2].
  destruct (in_dec Z.eq_dec t (dc_tids d')) as [Ht|Ht].
  2: { exfalso. assert (S := S2 t ltac:(tauto)). destruct (@no_values V t q _ S) as [_ B]. contradiction. }
  split; [assumption|].
  destruct (existsb (fun f => z_in t (fa_tids f)) (source_files (dc_files d') s)) eqn:X.
  - apply existsb_exists in X as (f & Hf & X). apply source_files_In in Hf as [Hf Hsf]. apply z_in_iff in X. exists f, s, k. split; [exact F|]. repeat split; assumption.
  - exfalso. assert (N : ~ (In t (dc_tids d') /\ exists f, holds d' f s t)).
    { intros [_ (f & Hf & Hsf & Htf)]. apply Bool.not_true_iff_false in X. apply X. apply existsb_exists.
      exists f. split; [apply source_files_In; auto|now apply z_in_iff]. }
    destruct (@no_values V t q _ (S2 t N)) as [_ B]. contradiction.
Qed.
Print Assumptions C79_rows.

(** Two sequence files with a motor, and a camera counter which has no value for two of the trains. *)
Definition tab_file1 : h5file Z := mk_h5 "da.h5" (Some [10;11;12]%Z) (Some "1.0") None
  (Some ["CONTROL/MOTOR"; "INSTRUMENT/CAM:daq/data"])
  [("MOTOR", mk_ix [0;1;2]%Z (IxCount [1;1;1]%Z)); ("CAM:daq/data", mk_ix [0;1;1]%Z (IxCount [1;0;1]%Z))]
  [("CONTROL/MOTOR/pos/value", dsZ [1;2;3]%Z); ("INSTRUMENT/CAM:daq/data/n", dsZ [5;6]%Z)].
Definition tab_file2 : h5file Z := mk_h5 "db.h5" (Some [13]%Z) (Some "1.0") None
  (Some ["CONTROL/MOTOR"]) [("MOTOR", mk_ix [0]%Z (IxCount [1]%Z))] [("CONTROL/MOTOR/pos/value", dsZ [4]%Z)].
Definition tab_run : dcoll Z := force no_coll (open_files [tab_file1; tab_file2]).
Definition tab_idx : list row_label := [(10, None); (11, None); (12, None); (13, None)]%Z.
Example C79_example : reachable tab_run /\ chosen tab_run None tab_run /\ shown tab_run false "CAM:daq" "data.n" /\
  distinct_kinds tab_run /\ good_files tab_run /\ good_index tab_run "CAM:daq" "data.n" /\ index_from_zero tab_run "CAM:daq" "data.n" /\
  dataframe (fun v => v) (fun v => v) tab_run None false =
    Ok (tab_idx, [("MOTOR/pos", [Some 1; Some 2; Some 3; Some 4]); ("CAM:daq/data.n", [Some 5; None; Some 6; None])])%Z.
Proof.
  split; [apply (@open_files_reachable [tab_file1; tab_file2]); reflexivity|]. split; [reflexivity|].
  split; [|split; [apply distinct_kindsb_ok; reflexivity|]; split; [apply good_filesb_ok; reflexivity|]; split; [apply good_indexb_ok; reflexivity|];
    split; [|vm_compute; reflexivity]].
  2: { intros f g a Hf Hs Hn Hg Ha. vm_compute in Hf. destruct Hf as [<-|[<-|[]]]; vm_compute in Hg; [|discriminate]. injection Hg as <-.
    vm_compute in Ha. injection Ha as <-. reflexivity. }
  split; [apply L_Field.check_field_iff; vm_compute; reflexivity|]. right.
  intros H. apply L_Glob.ends_with_iff in H. vm_compute in H. discriminate.
Qed.
(** With pulses. *)
Example C79_example_pulses :
  dataframe (fun v => v) (fun v => v) prun None false =
    Ok ([(20, Some 0); (20, Some 4); (22, Some 8); (23, Some 0); (23, Some 4)],
        [("AGIPD:xtdf/image.cellId", [Some 70; Some 71; Some 72; Some 73; Some 74]);
         ("AGIPD:xtdf/image.pulseId", [Some 0; Some 4; Some 8; Some 0; Some 4])])%Z.
Proof. vm_compute. reflexivity. Qed.
(** Module A has pulse ID 4 twice in train 20, module B has other pulses. *)
Definition rep_file (n : string) (ps : list Z) : h5file Z := mk_h5 (n ++ ".h5") (Some [20;21]%Z) (Some "1.0") None
  (Some [("INSTRUMENT/" ++ n ++ ":xtdf/image")%string])
  [((n ++ ":xtdf/image")%string, mk_ix [0;2]%Z (IxCount [2;1]%Z))]
  [(("INSTRUMENT/" ++ n ++ ":xtdf/image/pulseId")%string, ds1 ps)].
Definition rep_run : dcoll Z := force no_coll (open_files [rep_file "A" [4;4;8]; rep_file "B" [0;4;8]])%Z.
Example C79_example_repeated : reachable rep_run /\ chosen rep_run None rep_run /\
  (exists cols, get_dataframe (fun v => v) (fun v => v) rep_run None false = Ok cols /\ same_kind cols) /\
  shown rep_run false "A:xtdf" "image.pulseId" /\ shown rep_run false "B:xtdf" "image.pulseId" /\
  (exists ser ser', get_series (fun v => v) (fun v => v) rep_run "A:xtdf" "image.pulseId" = Ok ser /\ ~ NoDup (labels_of ser) /\
    get_series (fun v => v) (fun v => v) rep_run "B:xtdf" "image.pulseId" = Ok ser' /\ labels_of ser' <> labels_of ser) /\
  dataframe (fun v => v) (fun v => v) rep_run None false = Err EValueError.
Proof.
  split; [apply (@open_files_reachable [rep_file "A" [4;4;8]; rep_file "B" [0;4;8]]%Z); reflexivity|]. split; [reflexivity|].
  split. { eexists. split; [vm_compute; reflexivity|]. right. intros c a [<-|[<-|[]]] Ha; cbn in Ha; intuition (subst; discriminate). }
  assert (N : forall p, ends ".timestamp" p -> ends_with ".timestamp" p = true) by (intros p; apply L_Glob.ends_with_iff).
  split. { split; [apply L_Field.check_field_iff; vm_compute; reflexivity|]. right. intros H. apply N in H. vm_compute in H. discriminate. }
  split. { split; [apply L_Field.check_field_iff; vm_compute; reflexivity|]. right. intros H. apply N in H. vm_compute in H. discriminate. }
  split; [|vm_compute; reflexivity]. do 2 eexists. split; [vm_compute; reflexivity|]. split.
  - intros H. cbn in H. inversion H as [|? ? X _]; subst. apply X. now left.
  - split; [vm_compute; reflexivity|]. cbn. discriminate.
Qed.
