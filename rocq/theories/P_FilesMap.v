(** Properties of the cached map of a run (C31-C35). *)
From Verif Require Import Base PyStr M_Files M_Reader M_FilesMap S_FilesMap L_FilesMap L_FilesMap2 L_FilesMap3.
Set Implicit Arguments.
Local Open Scope string_scope.
Local Open Scope list_scope.

(** ** C31: a half-written map is never seen.
    [s] is any state reached from the start, so also the state left behind when the saving process is
    killed at any point; the saver's output is split into any number of writes. *)
Theorem C31_old_or_new : forall (B : Type) target (s0 s : system B) i all,
  fresh_start s0 -> ssteps target s0 s -> saver s0 i all -> (forall j a, saver s0 j a -> j = i) ->
  (finished s i all -> contents (sy_fs s) target = Some all) /\
  (~ finished s i all -> contents (sy_fs s) target = contents (sy_fs s0) target).
Proof. intros B target s0 s i all F H Sv One. exact (dump_alone F H Sv One). Qed.
Print Assumptions C31_old_or_new.

(** ** C32: any number of savers and readers, in any interleaving *)
Theorem C32_complete_maps : forall (B : Type) target (s0 s : system B), fresh_start s0 -> ssteps target s0 s ->
  (* the file is the initial one, or all that one process wrote *)
  (contents (sy_fs s) target = contents (sy_fs s0) target \/
   exists i all, saver s0 i all /\ finished s i all /\ contents (sy_fs s) target = Some all) /\
  (* whoever has read it got the initial map or all that one process wrote *)
  (forall j got, sy_procs s j = RDone got ->
     contents (sy_fs s0) target = Some got \/ exists i, saver s0 i got /\ finished s i got) /\
  (* nobody finds it missing unless it was missing at the start *)
  (forall j, sy_procs s j = RAbsent -> contents (sy_fs s0) target = None) /\
  (* other files are left alone *)
  (forall n, n <> target -> contents (sy_fs s0) n <> None -> contents (sy_fs s) n = contents (sy_fs s0) n).
Proof. intros B target s0 s F H. exact (dump_safe F H). Qed.
Print Assumptions C32_complete_maps.
(** The file changes only at the moment a process finishes saving, and then becomes that process' map. *)
Theorem C32_last_saver : forall (B : Type) target (s0 s s' : system B), fresh_start s0 -> ssteps target s0 s -> sstep target s s' ->
  (contents (sy_fs s') target = contents (sy_fs s) target /\ (forall i all, finished s' i all -> finished s i all)) \/
  (exists i all, ~ finished s i all /\ finished s' i all /\ saver s0 i all /\ contents (sy_fs s') target = Some all).
Proof. intros B target s0 s s' F H St. exact (dump_step F H St). Qed.
Print Assumptions C32_last_saver.

(** Two savers and a reader: the reader opens the old map, then the first saver finishes; the second dies
    after its first write, leaving a temporary file. *)
Definition fs_start : fsys nat := mk_fs (supd (fun _ => None) "map.json" (Some 0%nat)) (upd (fun _ => []) 0 [9; 9]%nat) 1.
Definition sys_start : system nat :=
  mk_sys fs_start (fun i => match i with O => WStart [[1; 2]; [3]]%nat | 1%nat => WStart [[4]; [5; 6]]%nat | _ => RStart end).
Lemma sys_start_fresh : fresh_start sys_start.
Proof.
  split.
  - intros n i H. simpl in *. unfold supd in H. destruct (String.eqb n "map.json"); [injection H as <-; lia|discriminate].
  - intros [|[|i]]; simpl; eauto.
Qed.
Lemma go : forall B t (s0 s : system B) i fs' p', ssteps t s0 s -> pstep t (sy_fs s) (sy_procs s i) fs' p' ->
  ssteps t s0 (mk_sys fs' (upd (sy_procs s) i p')).
Proof. intros. eapply ssteps_more; [eassumption|now constructor]. Qed.
Example C32_example : exists s, ssteps "map.json" sys_start s /\
  contents (sy_fs s) "map.json" = Some [1; 2; 3]%nat /\ contents (sy_fs s) "map.jsonB" = Some [4]%nat /\
  finished s 0 [1; 2; 3]%nat /\ sy_procs s 2 = RDone [9; 9]%nat.
Proof.
  assert (H := ssteps_refl "map.json" sys_start).
  eapply (@go _ _ _ _ 0) in H; [|simpl; apply (@st_mkstemp _ _ _ _ "map.jsonA"); [reflexivity|discriminate]].
  eapply (@go _ _ _ _ 1) in H; [|simpl; apply (@st_mkstemp _ _ _ _ "map.jsonB"); [reflexivity|discriminate]].
  eapply (@go _ _ _ _ 2) in H; [|simpl; apply st_open; reflexivity].
  eapply (@go _ _ _ _ 0) in H; [|simpl; apply st_write].
  eapply (@go _ _ _ _ 1) in H; [|simpl; apply st_write].
  eapply (@go _ _ _ _ 0) in H; [|simpl; apply st_write].
  eapply (@go _ _ _ _ 0) in H; [|simpl; apply st_close].
  eapply (@go _ _ _ _ 0) in H; [|simpl; apply st_replace; discriminate].
  eapply (@go _ _ _ _ 2) in H; [|simpl; apply (@st_read _ _ _ _ _ 5)].
  eapply (@go _ _ _ _ 2) in H; [|simpl; apply st_eof; simpl; lia].
  eexists. split; [exact H|]. repeat split.
Qed.

(** ** C33: the cached map changes nothing.
    Processes open the run and save maps, data files are replaced and removed, in any order; process [p] starts in
    state [wb] and has finished in the last state.  It returns, for each file in order, what that file contained
    at one instant in between; it leaves out only files which at some instant in between could not be opened. *)
Theorem C33_transparent : forall w0 l1 wb l2 p names w r m o,
  fresh_world w0 -> exec wstep w0 (l1 ++ wb :: l2) ->
  changes_show (l1 ++ wb :: l2) -> Forall (right_cache (l1 ++ wb :: l2)) (w_cache w0) ->
  w_procs wb p = OIdle names -> l1 ++ [wb] = w :: r -> w_procs w p = ODone m o ->
  opened_in (l1 ++ [wb]) names (run_result o).
Proof. exact cache_transparent. Qed.
Print Assumptions C33_transparent.
(** In particular, if the files of the run stay the same during that time, the result is that of
    opening all files without a map. *)
Theorem C33_same_as_uncached : forall w0 l1 wb l2 p names w r m o,
  fresh_world w0 -> exec wstep w0 (l1 ++ wb :: l2) ->
  changes_show (l1 ++ wb :: l2) -> Forall (right_cache (l1 ++ wb :: l2)) (w_cache w0) ->
  w_procs wb p = OIdle names -> l1 ++ [wb] = w :: r -> w_procs w p = ODone m o ->
  (forall v n, In v l1 -> In n names -> w_read v n = w_read wb n) ->
  Forall2 same_result (run_result o) (fresh_open (w_read wb) names).
Proof.
  intros w0 l1 wb l2 p names w r m o Fr Ex Sh Rc Ei E Ed Hc.
  eapply opened_fresh; [exact (cache_transparent Fr Ex Sh Rc Ei E Ed)|]. intros v n Hv Hn. apply in_app_iff in Hv.
  destruct Hv as [Hv|[<-|[]]]; auto.
Qed.
Print Assumptions C33_same_as_uncached.
(** At every moment, an entry of a map on disk is right for any file it would be used for. *)
Theorem C33_map_right : forall w0 w l, fresh_world w0 -> exec wstep w0 (w :: l) -> changes_show (w :: l) ->
  Forall (right_cache (w :: l)) (w_cache w0) -> Forall (right_cache (w :: l)) (w_cache w).
Proof. exact cache_right. Qed.
Print Assumptions C33_map_right.

(** Process 0 opens the run; the file is replaced before it saves the map; process 1 opens the run. *)
Definition info1 := mk_info [10; 11]%Z ["B"; "A"] [].
Definition info2 := mk_info [12]%Z ["A"] ["D:x"].
Definition world0 : world := mk_world (supd (fun _ => None) "f.h5" (Some 0%nat)) (fun _ => mk_inode (1, 100)%Z (Ok info1)) 1 [CAbsent]
  (fun _ => OIdle ["f.h5"; "g.h5"]).
Lemma world0_fresh : fresh_world world0.
Proof.
  split; [|simpl; eauto]. intros n i H. simpl in *. unfold supd in H. destruct (String.eqb n "f.h5"); [injection H as <-; lia|discriminate].
Qed.
Definition fg := ["f.h5"; "g.h5"].
Definition w1 := set_proc world0 0 (OLoad fg [] []).
Definition w2 := set_proc w1 0 (OOpen fg [] []).
Definition w3 := set_proc w2 0 (OOpen ["g.h5"] [] [("f.h5", Some 0%nat, info1)]).
Definition w4 := set_proc w3 0 (OOpen [] [] [("f.h5", Some 0%nat, info1)]).
Definition w5 (st : fstat) :=
  mk_world (supd (w_names w4) "f.h5" (Some 1%nat)) (upd (w_inodes w4) 1 (mk_inode st (Ok info2))) 2 (w_cache w4) (w_procs w4).
Definition e1 := mk_entry "f.h5" (1, 100)%Z (mk_info [10; 11]%Z ["A"; "B"] []).
Definition w6 st :=
  mk_world (w_names (w5 st)) (w_inodes (w5 st)) 2 [CMap [e1]] (upd (w_procs (w5 st)) 0 (ODone [] [("f.h5", Some 0%nat, info1)])).
Definition w7 st := set_proc (w6 st) 1 (OLoad fg [e1] []).
Definition m1 st := load_entry (w_stat (w7 st)) [] e1.
Definition w8 st := set_proc (w7 st) 1 (OLoad fg [] (m1 st)).
Definition w9 st := set_proc (w8 st) 1 (OOpen fg (m1 st) []).
Lemma w9_exec : forall st, exec wstep world0 [w9 st; w8 st; w7 st; w6 st; w5 st; w4; w3; w2; w1; world0].
Proof.
  intros st.
  apply exec_step; [|exact (@ws_loaded (w8 st) 1 fg (m1 st) eq_refl)].
  apply exec_step; [|exact (@ws_stat (w7 st) 1 fg e1 [] [] eq_refl)].
  apply exec_step; [|exact (@ws_json (w6 st) 1 fg [e1] eq_refl eq_refl)].
  apply exec_step; [|exact (@ws_save (w5 st) 0 [] [("f.h5", Some 0%nat, info1)] CAbsent [] [] eq_refl eq_refl)].
  apply exec_step; [|exact (@ws_replace w4 "f.h5" st (Ok info2))].
  apply exec_step; [|exact (@ws_skip w3 0 "g.h5" [] [] [("f.h5", Some 0%nat, info1)] EFileNotFoundError eq_refl eq_refl eq_refl)].
  apply exec_step; [|exact (@ws_open w2 0 "f.h5" ["g.h5"] [] [] 0 info1 eq_refl eq_refl eq_refl eq_refl)].
  apply exec_step; [|exact (@ws_loaded w1 0 fg [] eq_refl)].
  apply exec_step; [|exact (@ws_json world0 0 fg [] eq_refl eq_refl)].
  apply exec_init.
Qed.
(** The new file has another size: it is opened afresh. *)
Definition st2 : fstat := (1, 101)%Z.
Definition v10 := set_proc (w9 st2) 1 (OOpen ["g.h5"] [] [("f.h5", Some 1%nat, info2)]).
Definition v11 := set_proc v10 1 (OOpen [] [] [("f.h5", Some 1%nat, info2)]).
Definition v12 := set_proc v11 1 (ODone [] [("f.h5", Some 1%nat, info2)]).
Definition history : list world := [v12; v11; v10; w9 st2; w8 st2; w7 st2] ++ w6 st2 :: [w5 st2; w4; w3; w2; w1; world0].
Lemma history_exec : exec wstep world0 history.
Proof.
  unfold history. simpl.
  apply exec_step; [|exact (@ws_not_saved v11 1 [] _ eq_refl)].
  apply exec_step; [|exact (@ws_skip v10 1 "g.h5" [] [] [("f.h5", Some 1%nat, info2)] EFileNotFoundError eq_refl eq_refl eq_refl)].
  apply exec_step; [|exact (@ws_open (w9 st2) 1 "f.h5" ["g.h5"] [] [] 1 info2 eq_refl eq_refl eq_refl eq_refl)].
  apply w9_exec.
Qed.
Lemma reads_by_stat : forall ws D, (forall w n st, In w ws -> w_stat w n = Some st -> w_read w n = D n st) -> changes_show ws.
Proof. intros ws D H u v n st Hu Hv E1 E2. rewrite (H u n st), (H v n st); auto. Qed.
Lemma history_shows : changes_show history.
Proof.
  apply reads_by_stat with (D := fun n st => if stat_eqb st (1, 100)%Z then Ok info1 else Ok info2).
  intros w n st Hw. unfold history in Hw. simpl in Hw. unfold w_stat, w_read.
  repeat (destruct Hw as [<-|Hw]; [simpl; unfold supd; destruct (String.eqb n "f.h5"); [|discriminate]; simpl; intros E; injection E as <-; reflexivity|]).
  destruct Hw.
Qed.
Example C33_example : fresh_world world0 /\ exec wstep world0 history /\ changes_show history /\
  Forall (right_cache history) (w_cache world0) /\
  w_procs (w6 st2) 1 = OIdle fg /\ w_procs v12 1 = ODone [] [("f.h5", Some 1%nat, info2)] /\
  w_cache v12 = [CMap [e1]] /\
  opened_in ([v12; v11; v10; w9 st2; w8 st2; w7 st2] ++ [w6 st2]) fg [("f.h5", info2)].
Proof.
  assert (Rc : Forall (right_cache history) (w_cache world0)).
  { apply Forall_cons; [|apply Forall_nil]. intros l e w E. discriminate. }
  split; [exact world0_fresh|]. split; [exact history_exec|]. split; [exact history_shows|]. split; [exact Rc|].
  split; [reflexivity|]. split; [reflexivity|]. split; [reflexivity|].
  exact (@C33_transparent world0 [v12; v11; v10; w9 st2; w8 st2; w7 st2] (w6 st2) _ 1 _ v12 _ _ _ world0_fresh history_exec history_shows Rc eq_refl eq_refl eq_refl).
Qed.

(** The condition is needed: a file replaced by one of the same size and time keeps being described by
    the map as the old one, although it is unchanged during all of the opening. *)
Theorem C33_same_stat_refuted : exists l1 wb l2 w r m o,
  fresh_world world0 /\ exec wstep world0 (l1 ++ wb :: l2) /\ w_procs wb 1 = OIdle fg /\ l1 ++ [wb] = w :: r /\
  w_procs w 1 = ODone m o /\ (forall v n, In v l1 -> w_read v n = w_read wb n) /\
  run_result o = [("f.h5", mk_info [10; 11]%Z ["A"; "B"] [])] /\
  fresh_open (w_read wb) fg = [("f.h5", info2)].
Proof.
  pose (st := (1, 100)%Z). pose (m := [("f.h5", e1)]). pose (o := [("f.h5", None : option nat, fe_info e1)]).
  pose (u10 := set_proc (w9 st) 1 (OOpen ["g.h5"] m o)). pose (u11 := set_proc u10 1 (OOpen [] m o)). pose (u12 := set_proc u11 1 (ODone m o)).
  exists [u12; u11; u10; w9 st; w8 st; w7 st], (w6 st), [w5 st; w4; w3; w2; w1; world0], u12, [u11; u10; w9 st; w8 st; w7 st; w6 st], m, o.
  split; [exact world0_fresh|]. split.
  { simpl.
    apply exec_step; [|exact (@ws_not_saved u11 1 m o eq_refl)].
    apply exec_step; [|exact (@ws_skip u10 1 "g.h5" [] m o EFileNotFoundError eq_refl eq_refl eq_refl)].
    apply exec_step; [|exact (@ws_cached (w9 st) 1 "f.h5" ["g.h5"] m [] (fe_info e1) eq_refl eq_refl)].
    apply w9_exec. }
  split; [reflexivity|]. split; [reflexivity|]. split; [reflexivity|]. split.
  { intros v n Hv. simpl in Hv. repeat (destruct Hv as [<-|Hv]; [reflexivity|]). destruct Hv. }
  split; reflexivity.
Qed.
Print Assumptions C33_same_stat_refuted.
(** Even if every change shows in size or time: a file changed in place between being opened and the map being
    saved is recorded with the old contents and the new size and time, and so described wrongly ever after. *)
Theorem C33_in_place_refuted : exists l1 wb l2 w r m o,
  fresh_world world0 /\ exec wstep_inplace world0 (l1 ++ wb :: l2) /\ changes_show (l1 ++ wb :: l2) /\ w_procs wb 1 = OIdle fg /\ l1 ++ [wb] = w :: r /\
  w_procs w 1 = ODone m o /\ (forall v n, In v l1 -> w_read v n = w_read wb n) /\
  run_result o = [("f.h5", mk_info [10; 11]%Z ["A"; "B"] [])] /\
  fresh_open (w_read wb) fg = [("f.h5", info2)].
Proof.
  pose (u5 := mk_world (w_names w4) (upd (w_inodes w4) 0 (mk_inode st2 (Ok info2))) 1 (w_cache w4) (w_procs w4)).
  pose (e := mk_entry "f.h5" st2 (mk_info [10; 11]%Z ["A"; "B"] [])).
  pose (u6 := mk_world (w_names u5) (w_inodes u5) 1 [CMap [e]] (upd (w_procs u5) 0 (ODone [] [("f.h5", Some 0%nat, info1)]))).
  pose (m := [("f.h5", e)]). pose (o := [("f.h5", None : option nat, fe_info e)]).
  pose (u7 := set_proc u6 1 (OLoad fg [e] [])). pose (u8 := set_proc u7 1 (OLoad fg [] m)). pose (u9 := set_proc u8 1 (OOpen fg m [])).
  pose (u10 := set_proc u9 1 (OOpen ["g.h5"] m o)). pose (u11 := set_proc u10 1 (OOpen [] m o)). pose (u12 := set_proc u11 1 (ODone m o)).
  exists [u12; u11; u10; u9; u8; u7], u6, [u5; w4; w3; w2; w1; world0], u12, [u11; u10; u9; u8; u7; u6], m, o.
  split; [exact world0_fresh|]. split.
  { simpl.
    apply exec_step; [|exact (wi_step (@ws_not_saved u11 1 m o eq_refl))].
    apply exec_step; [|exact (wi_step (@ws_skip u10 1 "g.h5" [] m o EFileNotFoundError eq_refl eq_refl eq_refl))].
    apply exec_step; [|exact (wi_step (@ws_cached u9 1 "f.h5" ["g.h5"] m [] (fe_info e) eq_refl eq_refl))].
    apply exec_step; [|exact (wi_step (@ws_loaded u8 1 fg m eq_refl))].
    apply exec_step; [|exact (wi_step (@ws_stat u7 1 fg e [] [] eq_refl))].
    apply exec_step; [|exact (wi_step (@ws_json u6 1 fg [e] eq_refl eq_refl))].
    apply exec_step; [|exact (wi_step (@ws_save u5 0 [] [("f.h5", Some 0%nat, info1)] CAbsent [] [] eq_refl eq_refl))].
    apply exec_step; [|exact (@wi_change w4 "f.h5" 0 st2 (Ok info2) eq_refl)].
    apply exec_step; [|exact (wi_step (@ws_skip w3 0 "g.h5" [] [] [("f.h5", Some 0%nat, info1)] EFileNotFoundError eq_refl eq_refl eq_refl))].
    apply exec_step; [|exact (wi_step (@ws_open w2 0 "f.h5" ["g.h5"] [] [] 0 info1 eq_refl eq_refl eq_refl eq_refl))].
    apply exec_step; [|exact (wi_step (@ws_loaded w1 0 fg [] eq_refl))].
    apply exec_step; [|exact (wi_step (@ws_json world0 0 fg [] eq_refl eq_refl))].
    apply exec_init. }
  split.
  { apply reads_by_stat with (D := fun n st => if stat_eqb st (1, 100)%Z then Ok info1 else Ok info2).
    intros w n st Hw. simpl in Hw. unfold w_stat, w_read.
    repeat (destruct Hw as [<-|Hw]; [simpl; unfold supd; destruct (String.eqb n "f.h5"); [|discriminate]; simpl; intros E; injection E as <-; reflexivity|]).
    destruct Hw. }
  split; [reflexivity|]. split; [reflexivity|]. split; [reflexivity|]. split.
  { intros v n Hv. simpl in Hv. repeat (destruct Hv as [<-|Hv]; [reflexivity|]). destruct Hv. }
  split; reflexivity.
Qed.
Print Assumptions C33_in_place_refuted.

(** ** C34: loading what was saved.
    [m] is any loaded map; [files] the files opened, each with its size and time; [stat] the state of the files when
    the map is loaded again. *)
Theorem C34_save_load : forall c0 stat0 m files c rest c' stat,
  load_map c0 stat0 = Ok m -> (exists n st i, In (n, st, i) files /\ dict_get n m = None) -> save_map m files ((c, WrOk) :: rest) = Ok c' ->
  exists m', load_map c' stat = Ok m' /\ forall n,
    match map_get m' n with
    | Some i' => exists st i, remembered m files n = Some (st, i) /\ stat n = Some st /\ same_info i' i
    | None => forall st i, remembered m files n = Some (st, i) -> stat n <> Some st
    end.
Proof. intros c0 stat0 m files c rest c' stat L N. eapply save_load; [exact L|]. apply need_save_iff. exact N. Qed.
Print Assumptions C34_save_load.
(** If the map has an entry for every file, nothing is written. *)
Theorem C34_no_save : forall m files paths, (forall n st i, In (n, st, i) files -> exists e, dict_get n m = Some e) -> save_map m files paths = Ok (map fst paths).
Proof.
  intros m files paths H. destruct (need_save m files) eqn:E; [|unfold save_map; now rewrite E].
  apply need_save_iff in E. destruct E as (n & st & i & Hin & E). destruct (H _ _ _ Hin) as (e & E'). congruence.
Qed.
Print Assumptions C34_no_save.
Example C34_example : exists c', (exists n st i, In (n, st, i) [("g.h5", (2, 7)%Z, info2); ("f.h5", (5, 5)%Z, info1)] /\ dict_get n [("f.h5", e1)] = None) /\
  save_map [("f.h5", e1)] [("g.h5", (2, 7)%Z, info2); ("f.h5", (5, 5)%Z, info1)] [(CAbsent, WrOk)] = Ok c' /\
  load_map c' (fun n => if String.eqb n "g.h5" then Some (2, 7)%Z else Some (3, 100)%Z) =
    Ok [("g.h5", mk_entry "g.h5" (2, 7)%Z info2)].
Proof. eexists. split; [do 3 eexists; split; [now left|reflexivity]|]. split; reflexivity. Qed.

(** ** C35: problems with the cache *)
Theorem C35_opens : forall names stat read paths,
  fresh_open read names <> [] -> Forall harmless (map fst paths) -> Forall (right_now stat read) (map fst paths) ->
  Forall (fun p => snd p = WrOk \/ snd p = WrPermission) paths ->
  exists files c, run_directory names stat read paths = Ok (files, c) /\ Forall2 same_result files (fresh_open read names).
Proof. exact run_directory_ok. Qed.
Print Assumptions C35_opens.
(** A run without any file that can be opened is refused. *)
Theorem C35_no_files : forall names stat read paths,
  fresh_open read names = [] -> Forall harmless (map fst paths) -> Forall (right_now stat read) (map fst paths) ->
  run_directory names stat read paths = Err EException.
Proof. exact run_directory_none. Qed.
Print Assumptions C35_no_files.
Example C35_no_files_example : fresh_open (fun _ => Err EOSError) fg = [] /\
  run_directory fg (fun _ => Some (1, 100)%Z) (fun _ => Err EOSError) [(CGarbage, WrOk)] = Err EException.
Proof. split; reflexivity. Qed.
Definition read1 (n : string) : res finfo := if String.eqb n "f.h5" then Ok info1 else Err EOSError.
Example C35_example : run_directory fg (fun _ => Some (1, 100)%Z) read1 [(CGarbage, WrPermission); (CAbsent, WrOk)] =
  Ok ([("f.h5", info1)], [CGarbage; CMap [e1]]).
Proof. reflexivity. Qed.
(** Other problems do stop the run from being opened, although its files are fine: a cache file which exists but cannot be
    opened; valid JSON which is not a list of entries; an error other than PermissionError while writing. *)
Theorem C35_unreadable_refuted : forall e names stat read c rest, names <> [] ->
  run_directory names stat read ((CUnreadable e, c) :: rest) = Err e /\
  run_directory names stat read ((COther e, c) :: rest) = Err e.
Proof. intros e names stat read c rest Hn. destruct names as [|n names]; [contradiction|]. split; reflexivity. Qed.
Print Assumptions C35_unreadable_refuted.
Theorem C35_write_error_refuted : exists names stat read e, fresh_open read names <> [] /\
  run_directory names stat read [(CAbsent, WrError e)] = Err e.
Proof. exists fg, (fun _ => Some (1, 100)%Z), read1, EOSError. split; [discriminate|reflexivity]. Qed.
Print Assumptions C35_write_error_refuted.
