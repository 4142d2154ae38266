(** C86: where the cached map of a run is kept. *)
From Verif Require Import Base PyStr M_Regex M_Stacking M_OpenRun M_CachePath S_Open S_CachePath L_Base L_CachePath.
Local Open Scope string_scope.
Local Open Scope list_scope.

(** ** C86 *)
(** The map of the run is in its directory, or in the scratch directory of its
    proposal if the directory is that of a run and the scratch directory exists. *)
Theorem C86_places : forall isdir dir path, real_path path ->
  (forall root r, is_run path root r -> isdir (scratch r) = true ->
     map_paths_for_run isdir dir path = [path_join dir "karabo_data_map.json"; scratch_map r]) /\
  (forall root r, is_run path root r -> isdir (scratch r) = false ->
     map_paths_for_run isdir dir path = [path_join dir "karabo_data_map.json"]) /\
  ((forall root r, ~ is_run path root r) -> map_paths_for_run isdir dir path = [path_join dir "karabo_data_map.json"]).
Proof.
  intros isdir dir path Hp. split; [|split].
  - intros root r Hr E. rewrite (paths_run isdir dir Hp Hr), E. reflexivity.
  - intros root r Hr E. rewrite (paths_run isdir dir Hp Hr), E. reflexivity.
  - now apply paths_other.
Qed.
Print Assumptions C86_places.

(** A path is that of at most one run, below one root. *)
Theorem C86_one_run : forall path root r root' r', is_run path root r -> is_run path root' r' -> root = root' /\ r = r'.
Proof. intros path root r root' r' (E & _ & H) (E' & _ & H'). apply run_names_inj; auto. congruence. Qed.
Print Assumptions C86_one_run.

(** Directories which share a file in the scratch space are those of the same run: the
    paths agree from raw or proc on, so that on the same storage they are the same directory. *)
Theorem C86_own : forall isdir dir1 path1 dir2 path2 p, real_path path1 -> real_path path2 ->
  In p (tl (map_paths_for_run isdir dir1 path1)) -> In p (tl (map_paths_for_run isdir dir2 path2)) ->
  exists root1 root2 r, is_run path1 root1 r /\ is_run path2 root2 r /\ (root1 = root2 -> path1 = path2).
Proof.
  assert (T : forall isdir dir path p, real_path path -> In p (tl (map_paths_for_run isdir dir path)) -> exists root r, is_run path root r /\ p = scratch_map r).
  { intros isdir dir path p Hp H. unfold map_paths_for_run in H. destruct (re_match run_re path) as [gs|] eqn:E; [|destruct H].
    destruct (proj2 (match_real Hp) gs E) as (root & r & Hr & ->). exists root, r. split; [exact Hr|].
    unfold groups_of in H. destruct Hr as (_ & _ & Hr). rewrite (scratch_joined Hr), (map_joined Hr) in H. destruct (isdir (scratch r)); [|destruct H].
    cbn in H. destruct H as [<-|[]]. reflexivity. }
  intros isdir dir1 path1 dir2 path2 p H1 H2 I1 I2. destruct (T _ _ _ _ H1 I1) as (root1 & r1 & R1 & E1). destruct (T _ _ _ _ H2 I2) as (root2 & r2 & R2 & E2).
  assert (r1 = r2) by (apply scratch_map_inj; [apply R1|apply R2|congruence]). subst r2.
  exists root1, root2, r1. split; [exact R1|]. split; [exact R2|]. intros <-. destruct R1 as [-> _], R2 as [-> _]. reflexivity.
Qed.
Print Assumptions C86_own.

(** The map in a directory is never one of the scratch space. *)
Theorem C86_apart : forall isdir dir dir' path, real_path path ->
  ~ In (path_join dir "karabo_data_map.json") (tl (map_paths_for_run isdir dir' path)).
Proof.
  intros isdir dir dir' path Hp H. unfold map_paths_for_run in H. destruct (re_match run_re path) as [gs|] eqn:E; [|destruct H].
  destruct (proj2 (match_real Hp) gs E) as (root & r & Hr & ->). unfold groups_of in H. destruct Hr as (_ & _ & Hr).
  rewrite (scratch_joined Hr), (map_joined Hr) in H. destruct (isdir (scratch r)); [|destruct H].
  cbn in H. destruct H as [H|[]]. symmetry in H. revert H. now apply local_not_scratch.
Qed.
Print Assumptions C86_apart.

Definition run_a : string := "/gpfs/exfel/d/raw/SCS/201901/p002212/r0032".
Definition run_b : string := "/home/user/copies/raw/SCS/201901/p002212/r0032".
Definition id_a : run_id := mk_run_id "raw" "SCS" "201901" "p002212" "r0032".
Lemma id_a_ok : run_id_ok id_a.
Proof.
  split; [now left|]. repeat split; try discriminate; cbn; unfold word_letter; cbn; try lia.
  - exists "002212". repeat split; try discriminate; cbn; lia.
  - exists "0032". repeat split; try discriminate; cbn; lia.
Qed.
Lemma no_slash_last : forall a b, b <> "" -> ~ has_char "/" b -> forall q, (a ++ b)%string <> (q ++ "/")%string.
Proof. intros a b H1 H2 q E. assert (X := ends_name a H1 H2). rewrite E in X. assert (Y : ends_with "/" (q ++ "/") = true) by (apply L_MakeCxi.ends_slash; eauto). congruence. Qed.
Example C86_example : real_path run_a /\ real_path run_b /\ is_run run_a "/gpfs/exfel/d" id_a /\ is_run run_b "/home/user/copies" id_a /\
  map_paths_for_run (fun _ => true) run_a run_a =
    ["/gpfs/exfel/d/raw/SCS/201901/p002212/r0032/karabo_data_map.json";
     "/gpfs/exfel/exp/SCS/201901/p002212/scratch/.karabo_data_maps/raw_r0032.json"] /\
  map_paths_for_run (fun _ => true) "/tmp/run" "/tmp/run" = ["/tmp/run/karabo_data_map.json"].
Proof.
  split; [split; [apply (no_slash_last "/gpfs/exfel/d/raw/SCS/201901/p002212/" "r0032"); [discriminate|cbn; intuition discriminate]|cbn; intuition discriminate]|].
  split; [split; [apply (no_slash_last "/home/user/copies/raw/SCS/201901/p002212/" "r0032"); [discriminate|cbn; intuition discriminate]|cbn; intuition discriminate]|].
  split; [split; [reflexivity|split; [discriminate|exact id_a_ok]]|]. split; [split; [reflexivity|split; [discriminate|exact id_a_ok]]|]. split; vm_compute; reflexivity.
Qed.

(** That different directories have different places for their maps is false: a copy of a
    run with the same names shares the file in the scratch space of the proposal. *)
Theorem C86_copies_refuted : exists isdir path1 path2 p, real_path path1 /\ real_path path2 /\ path1 <> path2 /\
  In p (map_paths_for_run isdir path1 path1) /\ In p (map_paths_for_run isdir path2 path2).
Proof.
  exists (fun _ => true), run_a, run_b, "/gpfs/exfel/exp/SCS/201901/p002212/scratch/.karabo_data_maps/raw_r0032.json".
  destruct C86_example as (H1 & H2 & _). split; [exact H1|]. split; [exact H2|]. split; [discriminate|]. split; vm_compute; auto.
Qed.
Print Assumptions C86_copies_refuted.
(** Nor is the name of the run part of its path, if a newline follows. *)
Theorem C86_newline_refuted : exists isdir root name1 name2 p, name1 <> name2 /\ ~ has_char "/" name1 /\ ~ has_char "/" name2 /\
  In p (tl (map_paths_for_run isdir (root ++ name1) (root ++ name1))) /\ In p (tl (map_paths_for_run isdir (root ++ name2) (root ++ name2))).
Proof.
  exists (fun _ => true), "/d/raw/SCS/201901/p002212/", "r0032", ("r0032" ++ String newline "")%string, "/gpfs/exfel/exp/SCS/201901/p002212/scratch/.karabo_data_maps/raw_r0032.json".
  split; [discriminate|]. split; [cbn; intuition discriminate|]. split; [cbn; intuition discriminate|]. split; vm_compute; auto.
Qed.
Print Assumptions C86_newline_refuted.
