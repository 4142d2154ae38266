(** Property theorems: which data are served (C94). *)
From Verif Require Import Base PyStr M_Files M_Machinery M_Reader M_Glob M_Select M_Stream M_Serve S_Reader S_Coll S_Glob S_Select S_Avail S_Hist S_Stream
  L_Base L_Reader L_Select L_Trains L_Glob L_Sel2 L_Sel3 L_Components6 L_Hist L_Check L_Check3 L_Array2 P_Reader P_Select P_Stream Ex_Files.
Local Open Scope string_scope.
Local Open Scope list_scope.

(** What is given to the streamer for one train: of the data [r] of the train, the sources which a pair of patterns
    hits, with the keys it hits, and nothing else. *)
Definition part_of {V} (d : dcoll V) (p : string * string) (r r' : list (string * src_data V)) : Prop :=
  (forall s, In s (dict_keys r') <-> hits_source d p s) /\
  (forall s k, hits d p s k -> item r' s k = item r s k) /\
  (forall s k, ~ hits d p s k -> item r' s k = None).

Lemma view_item : forall (V : Type) (d d' : dcoll V) t r r' s k, reachable d -> reachable d' -> good_collection d -> good_collection d' ->
  train_view value_it d t r -> train_view value_it d' t r' -> available d s k -> available d' s k ->
  (forall f, holds d' f s t <-> holds d f s t) -> item r' s k = item r s k.
Proof.
  intros V d d' t r r' s k R R' G G' [T1 T2] [T1' T2'] A A' Hh.
  destruct A as (As & ks & Ak & Ain). destruct A' as (As' & ks' & Ak' & Ain').
  destruct (T2 s As) as (sd & Hsd & _ & _ & V1). destruct (V1 ks Ak) as (_ & V2 & V3).
  destruct (T2' s As') as (sd' & Hsd' & _ & _ & V1'). destruct (V1' ks' Ak') as (_ & V2' & V3').
  unfold item. rewrite Hsd, Hsd'.
  destruct (dec_exists_holds d s t) as [[f Hf]|Hno].
  - assert (Hf' : holds d' f s t) by now apply Hh.
    destruct (V3 k f Ain Hf) as (rows & F & ->). destruct (V3' k f Ain' Hf') as (rows' & F' & ->). f_equal.
    destruct (reachable_inv R) as [Hb _]. destruct (reachable_inv R') as [Hb' _].
    destruct Hf as (Hf1 & Hf2 & _). destruct Hf' as (Hf1' & _ & _). destruct G as (K & _). destruct G' as (K' & _).
    rewrite (ctrl_kind Hb K As Hf1 Hf2) in F. rewrite (ctrl_kind Hb' K' As' Hf1' Hf2) in F'.
    eapply file_rows_fun; eassumption.
  - rewrite (V2 k Ain Hno). apply V2'; [assumption|]. intros f Hf. apply Hh in Hf. exact (Hno f Hf).
Qed.
(** A key which is not available has no value. *)
Lemma view_none : forall (V : Type) (d : dcoll V) t r s k, reachable d -> train_view value_it d t r -> ~ available d s k -> item r s k = None.
Proof.
  intros V d t r s k R [T1 T2] N. unfold item. destruct (dict_get s r) as [sd|] eqn:E; [|reflexivity].
  assert (Hs : In s (dc_sources d)) by (apply T1; apply dict_get_In in E; apply in_map_iff; exists (s, sd); auto).
  destruct (T2 s Hs) as (sd' & E' & _ & _ & V1). rewrite E in E'. injection E' as <-.
  destruct (reachable_inv R) as [Hb _]. destruct (keys_for_source_ok Hb Hs) as [ks Ek].
  destruct (V1 ks Ek) as (V2 & _). apply V2. intros Hk. apply N. split; [exact Hs|eauto].
Qed.
Lemma available_dec : forall (V : Type) (d : dcoll V) s k, reachable d -> available d s k \/ ~ available d s k.
Proof.
  intros V d s k R. destruct (in_dec string_dec s (dc_sources d)) as [Hs|Hs]; [|right; intros [H _]; contradiction].
  destruct (reachable_inv R) as [Hb _]. destruct (keys_for_source_ok Hb Hs) as [ks Ek].
  destruct (in_dec string_dec k ks) as [Hk|Hk]; [left; split; [exact Hs|eauto]|right; intros (_ & ks' & E & H); rewrite Ek in E; injection E as <-; contradiction].
Qed.

(** Selecting with a pair of patterns what was opened. *)
Lemma select_pair : forall (V : Type) (files : list (faccess V)) d p, Forall (fun f => fa_open (fa_file f) = Ok f) files -> mk_collection files None None = Ok d ->
  good_collection d -> valid_pair p -> (exists s, hits_source d p s) ->
  exists d', select d (SelGlobs [p]) = Ok d' /\ reachable d' /\ good_collection d' /\ dc_tids d' = dc_tids d /\
    forall t r r', In t (dc_tids d) -> train_view value_it d t r -> train_view value_it d' t r' -> part_of d p r r'.
Proof.
  intros V files d p HF Hd G HV HL. assert (R : reachable d) by (eapply reach_open; eassumption).
  assert (HV' : Forall valid_pair [p]) by (constructor; [exact HV|constructor]).
  assert (HL' : forall q, In q [p] -> exists s, hits_source d q s) by (intros q [<-|[]]; exact HL).
  destruct (C12_select_globs V d [p] R HV') as [_ S2]. destruct (S2 HL') as (d' & E & T & Src & _). clear S2.
  destruct (C12_select_globs_opened V files d [p] HF Hd HV' HL') as (d'' & E' & Av). rewrite E in E'. injection E' as <-.
  assert (Av' : forall s k, available d' s k <-> available d s k /\ hits d p s k).
  { intros s k. rewrite Av. split; [intros [A (q & [<-|[]] & H)]; auto|intros [A H]; split; [exact A|exists p; split; [now left|exact H]]]. }
  assert (D : derived d d') by (eapply derived_select; [apply derived_refl|exact E]). destruct (derived_narrower R D) as [R' N].
  assert (G' : good_collection d') by (apply (narrower_good R R' N G); intros s k A; apply (Av s k); exact A).
  exists d'. split; [exact E|]. split; [exact R'|]. split; [exact G'|]. split; [exact T|].
  intros t r r' Ht V1 V2. split; [|split].
  - intros s. rewrite (proj1 V2 s), Src. split; [intros (q & [<-|[]] & H); exact H|intros H; exists p; split; [now left|exact H]].
  - intros s k H. destruct (available_dec V d s k R) as [A|A].
    + assert (A' : available d' s k) by (apply Av'; auto). apply (view_item V d d' t r r' s k R R' G G' V1 V2 A A').
      intros f. apply N; [apply A'|]. now rewrite T.
    + rewrite (view_none V d t r s k R V1 A). apply (view_none V d' t r' s k R' V2). intros X. apply Av' in X. tauto.
  - intros s k H. apply (view_none V d' t r' s k R' V2). intros X. apply Av' in X. tauto.
Qed.

(** serve_files: if no source is hit, ValueError before anything is served.  Otherwise, whatever clients do, the
    messages sent are those of the first trains, in order; each is made of the part of the train's data hit by the
    patterns.  [ser] is the serialisation, any function whose messages have parts. *)
Theorem C94_serve_files : forall (V M : Type) (open_run open_file : string -> res (dcoll V)) (is_dir : string -> bool) (ser : list (string * src_data V) -> res M)
  (no_parts : M -> bool) (files : list (faccess V)) d path sg kg,
  Forall (fun f => fa_open (fa_file f) = Ok f) files -> mk_collection files None None = Ok d -> good_collection d -> valid_pair (sg, kg) ->
  (if is_dir path then open_run path else open_file path) = Ok d ->
  (forall r m, ser r = Ok m -> r <> [] -> no_parts m = false) ->
  ((forall s, ~ hits_source d (sg, kg) s) -> serve_files open_run open_file is_dir ser path sg kg = Err EValueError) /\
  ((exists s, hits_source d (sg, kg) s) -> exists prog, serve_files open_run open_file is_dir ser path sg kg = Ok prog /\
     forall maxlen l st, steps no_parts maxlen (init prog) l = Some st ->
     exists n rs, Forall2 (fun t r => exists all, train_view value_it d t all /\ part_of d (sg, kg) all r) (firstn n (dc_tids d)) rs /\
       Forall2 (fun r m => ser r = Ok m) rs (List.map snd (st_sent st))).
Proof.
  intros V M open_run open_file is_dir ser no_parts files d path sg kg HF Hd G HV Ho Hp. assert (R : reachable d) by (eapply reach_open; eassumption).
  unfold serve_files. rewrite Ho. cbn [bind]. split.
  - intros N. destruct (C12_select_globs V d [(sg, kg)] R) as [S1 _]; [constructor; [exact HV|constructor]|].
    rewrite S1; [reflexivity|]. exists (sg, kg). split; [now left|exact N].
  - intros HL. destruct (select_pair V files d (sg, kg) HF Hd G HV HL) as (d' & E & R' & G' & T & P). rewrite E. cbn [bind].
    eexists. split; [reflexivity|]. intros maxlen l st H.
    destruct (@C45_serve_files V M ser no_parts d' maxlen l st R' G') as (n & rs & F1 & F2); [intros r m Hs Hn; apply (Hp r m Hs); intros ->; discriminate|exact H|].
    assert (T0 := C05_trains_all V d R G). assert (Vd : forall t, In t (dc_tids d) -> exists all, train_view value_it d t all).
    { intros t Ht. destruct (Forall2_In_r T0 Ht) as (o & _ & r & _ & Hv). eauto. }
    assert (PO : Forall2 (fun t r => exists all, train_view value_it d t all /\ part_of d (sg, kg) all r) (firstn n (dc_tids d)) rs).
    { rewrite T in F1. assert (I : incl (firstn n (dc_tids d)) (dc_tids d)) by (intros x Hx; rewrite <- (firstn_skipn n (dc_tids d)); apply in_or_app; now left).
      revert I. clear F2. induction F1 as [|t r l0 l1 Hv F1 IH]; intros I; [constructor|]. constructor; [|apply IH; intros x Hx; apply I; now right].
      destruct (Vd t (I t (or_introl eq_refl))) as [all Ha]. exists all. split; [exact Ha|]. apply (P t all r (I t (or_introl eq_refl)) Ha Hv). }
    assert (K : filter (fun r => negb match r with [] => true | _ => false end) rs = rs).
    2: { exists n, rs. split; [exact PO|]. now rewrite K in F2. }
    clear F2 F1. destruct HL as [s0 Hs0]. induction PO as [|t r l0 l1 (all & _ & Q) _ IH]; [reflexivity|].
    cbn [filter]. destruct r as [|x r]; [exfalso; destruct Q as [Q _]; apply (Q s0) in Hs0; destruct Hs0|]. cbn [negb]. f_equal. exact IH.
Qed.
Print Assumptions C94_serve_files.

(** The command: whatever --source and --key are, all the data of each train are served. *)
Theorem C94_command : forall (V M : Type) (open_run open_file : string -> res (dcoll V)) (is_dir : string -> bool) (ser : list (string * src_data V) -> res M)
  (no_parts : M -> bool) (files : list (faccess V)) d a,
  Forall (fun f => fa_open (fa_file f) = Ok f) files -> mk_collection files None None = Ok d -> good_collection d -> dc_sources d <> [] ->
  (if is_dir (sa_path a) then open_run (sa_path a) else open_file (sa_path a)) = Ok d ->
  (forall r m, ser r = Ok m -> r <> [] -> no_parts m = false) ->
  exists prog, serve_main open_run open_file is_dir ser a = Ok prog /\
    forall maxlen l st, steps no_parts maxlen (init prog) l = Some st ->
    exists n rs, Forall2 (fun t r => exists all, train_view value_it d t all /\ (forall s, In s (dict_keys r) <-> In s (dc_sources d)) /\
        forall s k, item r s k = item all s k) (firstn n (dc_tids d)) rs /\
      Forall2 (fun r m => ser r = Ok m) rs (List.map snd (st_sent st)).
Proof.
  intros V M open_run open_file is_dir ser no_parts files d a HF Hd G Hne Ho Hp. assert (R : reachable d) by (eapply reach_open; eassumption).
  assert (HV : valid_pair ("*", "*")) by (split; apply star_valid).
  assert (HS : forall s, hits_source d ("*", "*") s <-> In s (dc_sources d)).
  { intros s. unfold hits_source. cbn [fst snd]. split; [tauto|]. auto using glob_star_all. }
  destruct (C94_serve_files V M open_run open_file is_dir ser no_parts files d (sa_path a) "*" "*" HF Hd G HV Ho Hp) as [_ S].
  destruct S as (prog & E & S).
  { destruct (dc_sources d) as [|s l] eqn:E; [contradiction|]. exists s. apply HS. now left. }
  exists prog. split; [exact E|]. intros maxlen l st H. destruct (S maxlen l st H) as (n & rs & F1 & F2). exists n, rs. split; [|exact F2].
  clear F2. induction F1 as [|t r l0 l1 (all & V1 & P1 & P2 & P3) F1 IH]; constructor; [|exact IH]. exists all. split; [exact V1|]. split; [intros s; now rewrite P1, HS|].
  intros s k. apply P2. split; [apply glob_star_all|left; apply glob_star_all].
Qed.
Print Assumptions C94_command.

(** The property as documented by the help text of the command, "Stream only matching sources", fails: a source which
    does not match --source is sent.  Here a message is the list of the sources and keys it is made of. *)
Definition ex_names (r : list (string * src_data Z)) : res (list (string * list string)) := Ok (List.map (fun p => (fst p, dict_keys (sd_keys (snd p)))) r).
Definition ex_nil (m : list (string * list string)) : bool := match m with [] => true | _ => false end.
Definition ex_events : list event :=
  [EUser; EThread 0; EThread 0; EUser; EUser; ERequest 7 "next"; ERecv 0 0; EThread 0; EThread 0; EThread 0; ERequest 7 "next"; ERecv 0 0; EThread 0; EThread 0].
Theorem C94_command_refuted : ~ (forall (open_run open_file : string -> res (dcoll Z)) is_dir a prog maxlen l st,
  serve_main open_run open_file is_dir ex_names a = Ok prog -> steps ex_nil maxlen (init prog) l = Some st ->
  forall m s, In m (List.map snd (st_sent st)) -> In s (List.map fst m) -> glob (sa_source a) s).
Proof.
  intros H. remember (serve_main (fun _ => Ok run) (fun _ => Ok run) (fun _ => true) ex_names (mk_serve "/run" "4545" "DET*" "*")) as o eqn:E. vm_compute in E.
  destruct o as [prog|]; [|discriminate]. injection E as E.
  remember (steps ex_nil 0%Z (init prog) ex_events) as o eqn:F. rewrite E in F. vm_compute in F. destruct o as [st|]; [|discriminate].
  assert (X : glob "DET*" "XGM").
  { eapply (H (fun _ => Ok run) (fun _ => Ok run) (fun _ => true) (mk_serve "/run" "4545" "DET*" "*") prog 0%Z ex_events st).
    - rewrite E. vm_compute. reflexivity.
    - rewrite E, F. vm_compute. reflexivity.
    - injection F as ->. vm_compute. left. reflexivity.
    - vm_compute. left. reflexivity. }
  apply (C13_glob_meaning "DET*" _ "XGM" eq_refl) in X. vm_compute in X. discriminate.
Qed.
Print Assumptions C94_command_refuted.

(** A run of three files served with patterns which hit a part of it, and with patterns which hit nothing. *)
Example C94_example : good_collection run /\ valid_pair ("DET*", "image.*") /\
  (exists files, Forall (fun f => fa_open (fa_file f) = Ok f) files /\ mk_collection files None None = Ok run) /\
  (forall r m, ex_names r = Ok m -> r <> [] -> ex_nil m = false) /\
  hits_source run ("DET*", "image.*") "DET:out" /\ hits run ("DET*", "image.*") "DET:out" "image.data" /\ ~ hits run ("DET*", "image.*") "DET:out" "header.len" /\
  ~ hits_source run ("DET*", "image.*") "XGM" /\
  (exists prog st, serve_files (fun _ => Ok run) (fun _ => Ok run) (fun _ => true) ex_names "/run" "DET*" "image.*" = Ok prog /\
    steps ex_nil 0%Z (init prog) ex_events = Some st /\ List.map snd (st_sent st) = [[("DET:out", ["image.data"])]; [("DET:out", ["image.data"])]]) /\
  serve_files (fun _ => Ok run) (fun _ => Ok run) (fun _ => true) ex_names "/run" "DET*" "nokey" = Err EValueError.
Proof.
  split; [exact run_good|].
  split; [split; apply valid_patternb_ok; reflexivity|]. split; [|split; [intros [|x r] m E N; [contradiction|]; injection E as <-; reflexivity|]].
  { destruct (mapM (@fa_open Z) [file1; file2; file3]) as [fs|] eqn:E; [|discriminate]. exists fs. pose proof run_open as O. unfold open_files in O. rewrite E in O.
    split; [|exact O]. vm_compute in E. injection E as <-. repeat constructor. }
  assert (G : forall p n ts, glob_compile p = Ok ts -> glob_match ts n = true -> glob p n) by (intros p n ts A B; now apply (C13_glob_meaning p ts n A)).
  assert (G' : forall p n ts, glob_compile p = Ok ts -> glob_match ts n = false -> ~ glob p n) by (intros p n ts A B C; apply (C13_glob_meaning p ts n A) in C; congruence).
  assert (A1 : glob "DET*" "DET:out") by (eapply G; [reflexivity|vm_compute; reflexivity]).
  assert (A2 : glob "image.*" "image.data") by (eapply G; [reflexivity|vm_compute; reflexivity]).
  assert (A3 : ~ glob "image.*" "header.len") by (eapply G'; [reflexivity|vm_compute; reflexivity]).
  assert (A4 : ~ glob "DET*" "XGM") by (eapply G'; [reflexivity|vm_compute; reflexivity]).
  assert (H1 : hits run ("DET*", "image.*") "DET:out" "image.data") by (split; [exact A1|left; exact A2]).
  split; [|split; [exact H1|split; [|split; [|split]]]].
  - split; [vm_compute; tauto|]. split; [exact A1|]. right. exists "image.data". split; [|exact H1]. split; [vm_compute; tauto|]. eexists. split; [vm_compute; reflexivity|]. vm_compute. tauto.
  - intros [_ [X|(X & _)]]; [exact (A3 X)|vm_compute in X; discriminate].
  - intros (_ & X & _). exact (A4 X).
  - eexists. eexists. split; [vm_compute; reflexivity|]. split; [vm_compute; reflexivity|]. vm_compute. reflexivity.
  - vm_compute. reflexivity.
Qed.
