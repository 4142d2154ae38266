(** C105: the text of CrystFEL geometry files. *)

From Coq Require Import QArith.
From Verif Require Import Base PyStr M_Stacking S_Stacking S_Open L_Base M_Cxi L_Cxi7 M_Geom S_Geom L_Geom1 L_Geom4 M_Crystfel S_Crystfel L_Crystfel L_Crystfel2
  M_Repr M_InfoText M_CrystText S_CrystText L_CrystText L_CrystText2 L_CrystText3 P_Geom P_GeomErrors.

Set Implicit Arguments.
Local Open Scope string_scope.
Local Open Scope Z_scope.
Local Open Scope list_scope.

(** Reading the text by the rules of the format gives exactly the lines of the file, in order: no value is cut by a
    comment, runs into the next line, or becomes a line by itself. *)
Theorem C105_text : forall num_text read_num version d g dims args f, write_crystfel d g dims args = Ok f ->
  ~ has_char newline_char version -> good_path (ca_data args) -> (forall m, ca_mask args = Some m -> good_path m) ->
  (forall k v q, In (k, v) f -> In q (numbers v) -> good_number num_text read_num q) ->
  exists text f', geom_text num_text version d g dims args = Ok text /\ read_text read_num text = Some f' /\ same_lines f' f.
Proof. intros num_text read_num version d g dims args f H V D M G. exact (@text_read_back num_text read_num version d g dims args f H V D M G). Qed.
Print Assumptions C105_text.

(** The text can be written exactly when one of the dimensions is that of the frames. *)
Theorem C105_writable : forall num_text version d g dims args,
  (In DFrame dims -> exists text, geom_text num_text version d g dims args = Ok text) /\
  (~ In DFrame dims -> geom_text num_text version d g dims args = Err EValueError).
Proof.
  intros num_text version d g dims args. split; intros H.
  - destruct (@write_shape d g dims args H) as (gr & fr & Hg & _). destruct (@group_says num_text _ _ _ _ Hg) as (ls & El & _). unfold geom_text. cbv zeta.
    destruct (filter (fun nd => is_frame (snd nd)) (zenum dims)) as [|x xs] eqn:E; [apply no_frame in E; contradiction|]. rewrite El. cbn [bind]. eauto.
  - apply no_frame in H. unfold geom_text. cbv zeta. now rewrite H.
Qed.
Print Assumptions C105_writable.

(** The geometry comes back from the text of its file. *)
Theorem C105_round_trip : forall num_text read_num version d g dims args, full d g -> In DFrame dims ->
  ~ has_char newline_char version -> good_path (ca_data args) -> (forall m, ca_mask args = Some m -> good_path m) ->
  (forall f k v q, write_crystfel d g dims args = Ok f -> In (k, v) f -> In q (numbers v) -> good_number num_text read_num q) ->
  exists text f g', geom_text num_text version d g dims args = Ok text /\ read_text read_num text = Some f /\ from_crystfel d f = Ok g' /\ same_geometry g g'.
Proof.
  intros num_text read_num version d g dims args F I V D M G. destruct (@crystfel_inverse d g dims args F I) as (f & g' & E1 & E2 & S).
  destruct (@C105_text num_text read_num version d g dims args f E1 V D M) as (text & f' & T1 & T2 & T3); [intros k v q; apply G; exact E1|].
  assert (R := @from_rel d f' f T3). rewrite E2 in R. destruct (from_crystfel d f') as [g''|] eqn:E; [|destruct R]. exists text, f', g''. split; [exact T1|]. split; [exact T2|]. split; [exact E|].
  eapply same_geometry_trans; [exact S|]. apply same_geometry_sym, same_geom_rel. exact R.
Qed.
Print Assumptions C105_round_trip.

(** Values that were not given are left in the text as comments to be filled in. *)
Lemma split_lines : forall a b, py_split newline_char (a ++ String newline_char b) = py_split newline_char a ++ py_split newline_char b.
Proof.
  induction a as [|x a IH]; intros b; [reflexivity|]. cbn [append py_split]. destruct (Ascii.eqb x newline_char); cbn [append py_split]; rewrite IH; [reflexivity|].
  destruct (py_split newline_char a) eqn:E; [|reflexivity]. exfalso. revert E. clear. destruct a as [|y a]; cbn [py_split]; intros E; [discriminate E|]. destruct (Ascii.eqb y newline_char); [discriminate E|]. destruct (py_split newline_char a); discriminate E.
Qed.
Lemma line_in : forall l ls, In l ls -> ~ has_char newline_char l -> In l (py_split newline_char (print_lines ls)).
Proof.
  induction ls as [|x ls IH]; intros I N; [destruct I|]. cbn [print_lines fold_right].
  change (x ++ newline ++ fold_right (fun a r => (a ++ newline ++ r)%string) "" ls)%string with (x ++ String newline_char (print_lines ls))%string.
  rewrite split_lines. apply in_app_iff. destruct I as [<-|I]; [left|right; now apply IH]. rewrite split_none by exact N. now left.
Qed.
Theorem C105_set_me : forall num_text version d g dims args text, geom_text num_text version d g dims args = Ok text ->
  (ca_energy args = None -> In "; photon_energy = SET ME" (py_split newline_char text)) /\
  (ca_clen args = None -> In "; clen = SET ME" (py_split newline_char text)) /\
  (ca_adu args = None -> In "; adu_per_eV = SET ME" (py_split newline_char text)).
Proof.
  intros num_text version d g dims args text H. unfold geom_text in H. cbv zeta in H. destruct (filter (fun nd => is_frame (snd nd)) (zenum dims)) as [|fr frs]; [discriminate|].
  destruct (group_lines (n_modules d) (n_tiles d) 4) as [ls|]; [|discriminate]. cbn [bind] in H. apply Ok_eq in H. subst text. unfold header_lines.
  repeat split; intros E; (apply line_in; [|apply one_lineb_ok; reflexivity]); rewrite E; cbn [set_me append]; apply in_app_iff; left; apply in_app_iff; right; apply in_app_iff; right; cbn [In]; tauto.
Qed.
Print Assumptions C105_set_me.


(** ** Examples: numbers written as fractions *)
Definition frac_text (q : Q) : string := (int_repr (Qnum q) ++ "/" ++ str_of_int (Zpos (Qden q)))%string.
Definition read_frac (s : string) : option Q :=
  match py_partition "/" s with
  | (a, _, b) => match read_int a, read_nat b with Some n, Some (Zpos m) => Some (n # m) | _, _ => None end
  end.
Lemma frac_good : forall q, good_number frac_text read_frac q.
Proof.
  intros [n m]. unfold good_number, frac_text. cbn [Qnum Qden]. split; [|split].
  - apply word_app; [apply word_repr|]. apply word_app; [apply wordb_ok; reflexivity|apply word_int].
  - intros r E. unfold int_repr in E. destruct (n <? 0) eqn:L; [discriminate E|]. apply Z.ltb_ge in L. destruct (str_of_int_spec L) as (A & B & _).
    destruct (str_of_int n) as [|c s]; [congruence|]. cbn [append] in E. assert (C : c = "+"%char) by congruence. rewrite C in A. destruct A as [A _]. discriminate A.
  - exists (n # m). split; [|reflexivity]. unfold read_frac. change ("/" ++ str_of_int (Z.pos m))%string with (String "/" (str_of_int (Z.pos m))). rewrite partition_app.
    + rewrite read_int_ok, read_nat_ok by lia. reflexivity.
    + unfold int_repr. destruct (n <? 0); [|apply no_slash_int]. apply (@no_char_app "/" "-"); [cbn; intuition discriminate|apply no_slash_int].
Qed.
Definition ex_text_dims : list dim := [DFrame; DModno; DSs; DFs].
Lemma ex_dssc_ok : dssc_from_h5 (15 # 13) ex_h5 ex_quads (1 # 1000) = Ok ex_dssc.
Proof. vm_compute. reflexivity. Qed.
Lemma ex_dssc_full : full DSSC ex_dssc.
Proof. exact (proj1 (@C70_dssc _ _ _ _ _ ex_dssc_ok)). Qed.
Example C105_example : full DSSC ex_dssc /\ In DFrame ex_text_dims /\ ~ has_char newline_char "0.6.0" /\ good_path (ca_data ex_cf_args) /\
  (forall m, ca_mask ex_cf_args = Some m -> good_path m) /\ (forall q, good_number frac_text read_frac q) /\
  exists text, geom_text frac_text "0.6.0" DSSC ex_dssc ex_text_dims ex_cf_args = Ok text /\
    nth_error (py_split newline_char text) 9 = Some "data = /entry_1/data ;" /\ In "clen = 1/5" (py_split newline_char text) /\
    In "; adu_per_eV = SET ME" (py_split newline_char text) /\ In "p15a1/dim1 = 15" (py_split newline_char text) /\ In "p15a1/max_fs = 511" (py_split newline_char text).
Proof.
  split; [exact ex_dssc_full|]. split; [left; reflexivity|]. split; [apply one_lineb_ok; reflexivity|]. 
  assert (P : forall s, wordb s = true -> good_path s) by (intros s H; exact (ok_word (wordb_ok H))).
  split; [apply P; reflexivity|]. split; [intros m E; injection E as <-; apply P; reflexivity|]. split; [exact frac_good|].
  destruct (geom_text frac_text "0.6.0" DSSC ex_dssc ex_text_dims ex_cf_args) as [text|] eqn:E; [|vm_compute in E; discriminate E]. exists text. split; [reflexivity|].
  assert (K : forall l, str_in l (py_split newline_char text) = true -> In l (py_split newline_char text)) by (intros l; apply str_in_iff).
  assert (T : text = match geom_text frac_text "0.6.0" DSSC ex_dssc ex_text_dims ex_cf_args with Ok t => t | Err _ => "" end) by now rewrite E.
  split; [rewrite T; vm_compute; reflexivity|]. repeat split; (apply K; rewrite T; vm_compute; reflexivity).
Qed.
Definition ex_bad_args : cf_args := mk_cf_args "/entry;1/data" None None None None.
(** A path with a semicolon does not come back: what follows the semicolon is taken for a comment. *)
Theorem C105_path_refuted : exists num_text read_num version d g dims args f text f', full d g /\ In DFrame dims /\
  write_crystfel d g dims args = Ok f /\ ~ has_char newline_char version /\ (forall q, good_number num_text read_num q) /\
  geom_text num_text version d g dims args = Ok text /\ read_text read_num text = Some f' /\
  dict_get "data" f = Some (CText "/entry;1/data") /\ dict_get "data" f' = Some (CText "/entry").
Proof.
  exists frac_text, read_frac, "0.6.0", DSSC, ex_dssc, ex_text_dims, ex_bad_args.
  destruct (write_crystfel DSSC ex_dssc ex_text_dims ex_bad_args) as [f|] eqn:E1; [|vm_compute in E1; discriminate E1].
  destruct (geom_text frac_text "0.6.0" DSSC ex_dssc ex_text_dims ex_bad_args) as [text|] eqn:E2; [|vm_compute in E2; discriminate E2].
  assert (T1 : f = match write_crystfel DSSC ex_dssc ex_text_dims ex_bad_args with Ok t => t | Err _ => [] end) by now rewrite E1.
  assert (T2 : text = match geom_text frac_text "0.6.0" DSSC ex_dssc ex_text_dims ex_bad_args with Ok t => t | Err _ => "" end) by now rewrite E2.
  destruct (read_text read_frac text) as [f'|] eqn:E3; [|exfalso; rewrite T2 in E3; vm_compute in E3; discriminate E3].
  assert (T3 : f' = match read_text read_frac text with Some t => t | None => [] end) by now rewrite E3.
  exists f, text, f'. split; [exact ex_dssc_full|]. split; [left; reflexivity|]. split; [reflexivity|]. split; [apply one_lineb_ok; reflexivity|]. split; [exact frac_good|]. split; [reflexivity|]. split; [exact E3|].
  split; [rewrite T1; vm_compute; reflexivity|]. rewrite T3, T2. vm_compute. reflexivity.
Qed.
Print Assumptions C105_path_refuted.
