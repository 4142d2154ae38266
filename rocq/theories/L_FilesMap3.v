(** Lemmas: saving, loading and using the cached map in one process. *)
From Verif Require Import Base PyStr M_Files M_Reader M_FilesMap S_FilesMap L_Base L_Sel2 L_FilesMap L_FilesMap2.
Set Implicit Arguments.
Unset Strict Implicit.
Local Open Scope string_scope.
Local Open Scope list_scope.

Definition keyed (m : files_data) : Prop := NoDup (dict_keys m) /\ forall n e, In (n, e) m -> fe_name e = n.
Lemma keyed_set : forall m e, keyed m -> keyed (dict_set (fe_name e) e m).
Proof.
  intros m e [H1 H2]. split; [now apply dict_set_nodup|]. intros n e' H. apply in_dict_set in H. destruct H as [[-> ->]|H]; auto.
Qed.
Lemma keyed_load : forall stat l m, keyed m -> keyed (fold_left (load_entry stat) l m).
Proof.
  intros stat. induction l as [|e l IH]; intros m H; simpl; [assumption|]. apply IH. unfold load_entry.
  destruct (stat (fe_name e)); [|assumption]. destruct (stat_eqb f (fe_stat e)); [|assumption]. now apply keyed_set.
Qed.
Lemma load_map_keyed : forall c stat m, load_map c stat = Ok m -> keyed m.
Proof.
  intros c stat m H. unfold load_map in H. destruct (load_json c) as [l|]; simpl in H; [|discriminate]. injection H as <-.
  apply keyed_load. split; [constructor|intros ? ? []].
Qed.
Lemma keyed_save : forall files m, keyed m -> keyed (fold_left save_entry files m).
Proof.
  induction files as [|[[n st] i] files IH]; intros m H; simpl; [assumption|]. apply IH.
  destruct (dict_get n m); [assumption|].
  apply (fun H => @keyed_set m (mk_entry n st (mk_info (fi_tids i) (str_sort (fi_ctrl i)) (str_sort (fi_inst i)))) H). assumption.
Qed.
Lemma get_saved : forall files m n, match dict_get n (fold_left save_entry files m) with
  | Some e => match remembered m files n with Some (st, i) => fe_stat e = st /\ same_info (fe_info e) i | None => False end
  | None => remembered m files n = None end.
Proof.
  induction files as [|[[n' st] i] files IH]; intros m n.
  - simpl. unfold remembered. destruct (dict_get n m) as [e|]; [split; [reflexivity|apply same_info_refl]|reflexivity].
  - cbn [fold_left]. specialize (IH (save_entry m (n', st, i)) n).
    assert (E : match remembered (save_entry m (n', st, i)) files n, remembered m ((n', st, i) :: files) n with
      | Some (s1, i1), Some (s2, i2) => s1 = s2 /\ same_info i1 i2 | None, None => True | _, _ => False end).
    { unfold remembered, save_entry. cbn [first_file]. destruct (dict_get n' m) as [e'|] eqn:E'.
      - destruct (dict_get n m) as [e|] eqn:E; [split; [reflexivity|apply same_info_refl]|].
        destruct (String.eqb_spec n n') as [->|_]; [congruence|]. destruct (first_file files n) as [[s1 i1]|]; [|exact I].
        split; [reflexivity|apply same_info_refl].
      - rewrite dict_get_set. destruct (String.eqb_spec n n') as [->|_].
        + rewrite E'. simpl. split; [reflexivity|]. apply sorted_info_same.
        + destruct (dict_get n m) as [e|] eqn:E; [split; [reflexivity|apply same_info_refl]|].
          destruct (first_file files n) as [[s1 i1]|]; [|exact I]. split; [reflexivity|apply same_info_refl]. }
    destruct (dict_get n (fold_left save_entry files (save_entry m (n', st, i)))) as [e|].
    + destruct (remembered (save_entry m (n', st, i)) files n) as [[s1 i1]|]; [|destruct IH].
      destruct (remembered m ((n', st, i) :: files) n) as [[s2 i2]|]; [|destruct E]. destruct IH as [-> I1], E as [-> I2].
      split; [reflexivity|]. eapply same_info_trans; eassumption.
    + rewrite IH in E. destruct (remembered m ((n', st, i) :: files) n) as [[s2 i2]|]; [destruct E|reflexivity].
Qed.
Lemma get_loaded : forall stat l m n e, dict_get n (fold_left (load_entry stat) l m) = Some e ->
  (In e l /\ fe_name e = n /\ stat n = Some (fe_stat e)) \/ dict_get n m = Some e.
Proof.
  intros stat. induction l as [|x l IH]; intros m n e H; simpl in H; [now right|].
  apply IH in H. destruct H as [(H1 & H2 & H3)|H]; [left; simpl; auto|]. unfold load_entry in H.
  destruct (stat (fe_name x)) as [st|] eqn:Es; [|now right]. destruct (stat_eqb st (fe_stat x)) eqn:Eq; [|now right].
  rewrite dict_get_set in H. destruct (String.eqb_spec n (fe_name x)) as [->|_]; [|now right]. injection H as <-.
  apply stat_eqb_eq in Eq. subst st. left. simpl. auto.
Qed.
Lemma loaded_get : forall stat l m e, NoDup (map fe_name l) -> In e l -> stat (fe_name e) = Some (fe_stat e) ->
  dict_get (fe_name e) (fold_left (load_entry stat) l m) = Some e.
Proof.
  intros stat. induction l as [|x l IH]; intros m e Hd He Hs; [destruct He|]. simpl in Hd |- *. inversion Hd as [|? ? Hx Hd']; subst.
  destruct He as [->|He]; [|auto]. unfold load_entry at 2. rewrite Hs, stat_eqb_refl.
  assert (K : forall l m, ~ In (fe_name e) (map fe_name l) -> dict_get (fe_name e) (fold_left (load_entry stat) l m) = dict_get (fe_name e) m).
  { clear. induction l as [|y l IH]; intros m H; simpl; [reflexivity|]. simpl in H. rewrite IH by tauto. unfold load_entry.
    destruct (stat (fe_name y)); [|reflexivity]. destruct (stat_eqb f (fe_stat y)); [|reflexivity]. rewrite dict_get_set.
    destruct (String.eqb_spec (fe_name e) (fe_name y)); [|reflexivity]. exfalso. apply H. left. congruence. }
  rewrite K by assumption. rewrite dict_get_set, String.eqb_refl. reflexivity.
Qed.
Lemma map_fst_name : forall m : files_data, (forall n e, In (n, e) m -> fe_name e = n) -> map (fun x => fe_name (snd x)) m = dict_keys m.
Proof.
  intros m H. unfold dict_keys. apply map_ext_in. intros [n e] Hi. simpl. auto.
Qed.
Lemma save_data_names : forall m, keyed m -> NoDup (map fe_name (save_data m)).
Proof.
  intros m [H1 H2]. unfold save_data. rewrite map_map.
  eapply Permutation_NoDup; [apply Permutation_map; apply isort_perm|]. rewrite map_fst_name; assumption.
Qed.
Lemma dict_get_in : forall (m : files_data) n e, keyed m -> In (n, e) m -> dict_get n m = Some e.
Proof.
  induction m as [|[k v] m IH]; intros n e [H1 H2] H; [destruct H|]. inversion H1 as [|? ? Hk Hd]; subst. simpl.
  destruct H as [E|H].
  - injection E as -> ->. now rewrite String.eqb_refl.
  - destruct (String.eqb_spec n k) as [->|_]; [exfalso; apply Hk; apply (in_map fst) in H; exact H|].
    apply IH; [|assumption]. split; [assumption|]. intros; apply H2; now right.
Qed.

Lemma save_load : forall c0 stat0 m files c rest c' stat,
  load_map c0 stat0 = Ok m -> need_save m files = true -> save_map m files ((c, WrOk) :: rest) = Ok c' ->
  exists m', load_map c' stat = Ok m' /\ forall n,
    match map_get m' n with
    | Some i' => exists st i, remembered m files n = Some (st, i) /\ stat n = Some st /\ same_info i' i
    | None => forall st i, remembered m files n = Some (st, i) -> stat n <> Some st
    end.
Proof.
  intros c0 stat0 m files c rest c' stat Hm Hn Hs. unfold save_map in Hs. rewrite Hn in Hs. simpl in Hs. injection Hs as <-.
  assert (K : keyed (fold_left save_entry files m)) by (apply keyed_save; eapply load_map_keyed; eassumption).
  unfold load_map. simpl. eexists. split; [reflexivity|]. intros n.
  unfold map_get. destruct (dict_get n (fold_left (load_entry stat) (save_data (fold_left save_entry files m)) [])) as [e|] eqn:E.
  - apply get_loaded in E. destruct E as [(E1 & E2 & E3)|E]; [|discriminate]. apply in_save_data in E1. destruct E1 as [k E1].
    assert (k = n) by (destruct K as [_ K]; rewrite <- (K _ _ E1); assumption). subst k.
    apply dict_get_in in E1; [|assumption]. assert (G := get_saved files m n). rewrite E1 in G.
    destruct (remembered m files n) as [[st i]|]; [|destruct G]. destruct G as [G1 G2]. exists st, i. split; [reflexivity|]. split; [congruence|assumption].
  - intros st i Hr Hst. assert (G := get_saved files m n). rewrite Hr in G.
    destruct (dict_get n (fold_left save_entry files m)) as [e|] eqn:Ed; [|discriminate]. destruct G as [G1 G2].
    apply dict_get_In in Ed. assert (fe_name e = n) by (destruct K as [_ K]; eauto). subst n.
    assert (X : dict_get (fe_name e) (fold_left (load_entry stat) (save_data (fold_left save_entry files m)) []) = Some e).
    { apply loaded_get; [apply save_data_names; assumption| |congruence]. apply in_save_data. eauto. }
    congruence.
Qed.
Lemma need_save_iff : forall m files, need_save m files = true <-> exists n st i, In (n, st, i) files /\ dict_get n m = None.
Proof.
  intros m files. unfold need_save. rewrite existsb_exists. split.
  - intros ([[n st] i] & H & E). simpl in E. exists n, st, i. split; [exact H|]. destruct (dict_get n m); [discriminate|reflexivity].
  - intros (n & st & i & H & E). exists (n, st, i). split; [exact H|]. simpl. now rewrite E.
Qed.
Lemma no_save : forall m files paths, need_save m files = false ->
  save_map m files paths = Ok (map fst paths) /\ forall n st i, In (n, st, i) files -> exists e, dict_get n m = Some e.
Proof.
  intros m files paths H. unfold save_map. rewrite H. split; [reflexivity|]. intros n st i Hi.
  destruct (dict_get n m) as [e|] eqn:E; [eauto|]. exfalso. unfold need_save in H. rewrite <- not_true_iff_false in H. apply H.
  apply existsb_exists. exists (n, st, i). split; [assumption|]. simpl. now rewrite E.
Qed.

Lemma load_json_harmless : forall c, Forall harmless c -> exists l, load_json c = Ok l.
Proof.
  intros c H. induction H as [|x c H Hc IH]; simpl; [eauto|]. destruct H as [->|[->|(l & ->)]]; [assumption|assumption|eauto].
Qed.
Lemma write_first_ok : forall l paths, Forall (fun p => snd p = WrOk \/ snd p = WrPermission) paths -> exists c, write_first l paths = Ok c.
Proof.
  intros l paths H. induction H as [|[c r] paths H Hp IH]; simpl; [eauto|]. simpl in H. destruct H as [-> | ->]; [eauto|].
  destruct IH as [c' ->]. simpl. eauto.
Qed.
Lemma open_files_same : forall read m names,
  (forall n i, map_get m n = Some i -> exists i', read n = Ok i' /\ same_info i i') ->
  Forall2 same_result (open_run_files read m names) (fresh_open read names).
Proof.
  intros read m names H. induction names as [|n names IH]; simpl; [constructor|]. unfold open_run_files, filter_map in *. simpl.
  unfold open_one_file at 1. destruct (map_get m n) as [i|] eqn:E.
  - destruct (H _ _ E) as (i' & R & S'). rewrite R. simpl. constructor; [split; auto|assumption].
  - destruct (read n); simpl; [constructor; [split; [reflexivity|apply same_info_refl]|assumption]|assumption].
Qed.
Lemma run_directory_ok : forall names stat read paths,
  fresh_open read names <> [] -> Forall harmless (map fst paths) -> Forall (right_now stat read) (map fst paths) ->
  Forall (fun p => snd p = WrOk \/ snd p = WrPermission) paths ->
  exists files c, run_directory names stat read paths = Ok (files, c) /\ Forall2 same_result files (fresh_open read names).
Proof.
  intros names stat read paths Hne Hh Hr Hw. destruct (load_json_harmless Hh) as [l El].
  assert (K : forall n i, map_get (fold_left (load_entry stat) l []) n = Some i -> exists i', read n = Ok i' /\ same_info i i').
  { intros n i E. unfold map_get in E. destruct (dict_get n (fold_left (load_entry stat) l [])) as [e|] eqn:Ed; [|discriminate]. injection E as <-.
    apply get_loaded in Ed. destruct Ed as [(E1 & E2 & E3)|Ed]; [|discriminate]. destruct (load_json_in El E1) as (l' & I1 & I2).
    rewrite Forall_forall in Hr. subst n. eapply (Hr _ I1); eauto. }
  assert (O := open_files_same names K).
  unfold run_directory, load_map. rewrite El. simpl.
  destruct names as [|n names]; [contradiction|].
  destruct (open_run_files read (fold_left (load_entry stat) l []) (n :: names)) as [|f fs] eqn:Eo.
  - exfalso. apply Hne. inversion O as [E1 E2|]. symmetry. exact E2.
  - unfold save_map. set (files := filter_map _ _). destruct (need_save (fold_left (load_entry stat) l []) files).
    + destruct (write_first_ok (save_data (fold_left save_entry files (fold_left (load_entry stat) l []))) Hw) as [c ->]. simpl. eauto.
    + simpl. eauto.
Qed.
Lemma run_directory_none : forall names stat read paths,
  fresh_open read names = [] -> Forall harmless (map fst paths) -> Forall (right_now stat read) (map fst paths) ->
  run_directory names stat read paths = Err EException.
Proof.
  intros names stat read paths Hne Hh Hr. destruct (load_json_harmless Hh) as [l El].
  assert (K : forall n i, map_get (fold_left (load_entry stat) l []) n = Some i -> exists i', read n = Ok i' /\ same_info i i').
  { intros n i E. unfold map_get in E. destruct (dict_get n (fold_left (load_entry stat) l [])) as [e|] eqn:Ed; [|discriminate]. injection E as <-.
    apply get_loaded in Ed. destruct Ed as [(E1 & E2 & E3)|Ed]; [|discriminate]. destruct (load_json_in El E1) as (l' & I1 & I2).
    rewrite Forall_forall in Hr. subst n. eapply (Hr _ I1); eauto. }
  assert (O := open_files_same names K). rewrite Hne in O. inversion O as [E1|].
  unfold run_directory, load_map. rewrite El. cbn [bind]. destruct names as [|n names]; [reflexivity|]. rewrite <- E1. reflexivity.
Qed.
