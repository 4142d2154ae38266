(** Lemmas: opening a run with a cached map while files change. *)
From Verif Require Import Base PyStr M_Files M_Reader M_FilesMap S_FilesMap L_Base L_FilesMap.
Set Implicit Arguments.
Unset Strict Implicit.
Local Open Scope string_scope.
Local Open Scope list_scope.

Lemma same_info_refl : forall i, same_info i i.
Proof. intros i. repeat split; auto. Qed.
Lemma same_info_trans : forall a b c, same_info a b -> same_info b c -> same_info a c.
Proof.
  intros a b c (A1 & A2 & A3) (B1 & B2 & B3). split; [congruence|]. split; intros s; [rewrite A2; apply B2|rewrite A3; apply B3].
Qed.
Lemma same_info_sym : forall a b, same_info a b -> same_info b a.
Proof. intros a b (A1 & A2 & A3). split; [congruence|]. split; intros s; [symmetry; apply A2|symmetry; apply A3]. Qed.
Lemma stat_eqb_eq : forall a b, stat_eqb a b = true -> a = b.
Proof. intros [a1 a2] [b1 b2] H. unfold stat_eqb in H. simpl in H. apply andb_true_iff in H. destruct H as [H1 H2]. apply Z.eqb_eq in H1, H2. now subst. Qed.
Lemma stat_eqb_refl : forall a, stat_eqb a a = true.
Proof. intros [a b]. unfold stat_eqb. simpl. now rewrite !Z.eqb_refl. Qed.

Lemma in_dict_set : forall B k k' (v v' : B) d, In (k, v) (dict_set k' v' d) -> (k = k' /\ v = v') \/ In (k, v) d.
Proof.
  intros B k k' v v'. induction d as [|[a b] d IH]; simpl; intros H.
  - destruct H as [E|[]]. injection E as <- <-. auto.
  - destruct (String.eqb_spec k' a) as [->|Hne]; simpl in H; destruct H as [E|H].
    + injection E as <- <-. auto.
    + auto.
    + injection E as <- <-. auto.
    + destruct (IH H); auto.
Qed.
Lemma in_filter_map : forall A B (f : A -> option B) l y, In y (filter_map f l) <-> exists x, In x l /\ f x = Some y.
Proof.
  intros A B f l y. unfold filter_map. rewrite in_flat_map. split; intros (x & H1 & H2); exists x; (split; [assumption|]).
  - destruct (f x); [|destruct H2]. destruct H2 as [->|[]]. reflexivity.
  - rewrite H2. now left.
Qed.
Lemma in_str_sort : forall s l, In s (str_sort l) <-> In s l.
Proof.
  intros s l. unfold str_sort. split; apply Permutation_in; [symmetry|]; apply isort_perm.
Qed.
Lemma sorted_info_same : forall i, same_info (mk_info (fi_tids i) (str_sort (fi_ctrl i)) (str_sort (fi_inst i))) i.
Proof. intros i. split; [reflexivity|]. split; intros s; apply in_str_sort. Qed.
Lemma in_save_data : forall m e, In e (save_data m) <-> exists k, In (k, e) m.
Proof.
  intros m e. unfold save_data. rewrite in_map_iff. split.
  - intros ([k e'] & E & H). simpl in E. subst e'. exists k. eapply Permutation_in; [symmetry; apply isort_perm|exact H].
  - intros (k & H). exists (k, e). split; [reflexivity|]. eapply Permutation_in; [apply isort_perm|exact H].
Qed.
(** The entries after saving: those known before, and those of the files. *)
Lemma in_save_entries : forall files m k e, In (k, e) (fold_left save_entry files m) ->
  In (k, e) m \/ exists st i, In (k, st, i) files /\ e = mk_entry k st (mk_info (fi_tids i) (str_sort (fi_ctrl i)) (str_sort (fi_inst i))).
Proof.
  induction files as [|[[n st] i] files IH]; intros m k e H; simpl in H; [now left|].
  apply IH in H. destruct H as [H|(st' & i' & H1 & H2)].
  - destruct (dict_get n m); [now left|]. apply in_dict_set in H. destruct H as [[-> ->]|H]; [right|now left].
    exists st, i. split; [now left|reflexivity].
  - right. exists st', i'. split; [now right|assumption].
Qed.

Lemma opened_in_file : forall ws names r n i i' w, opened_in ws names r -> In w ws -> w_read w n = Ok i' -> same_info i i' ->
  opened_in ws (names ++ [n]) (r ++ [(n, i)]).
Proof.
  intros ws names r n i i' w H Hw Hr Hs. induction H as [|x j j' v names r H1 H2 H3 H IH|x e v names r H1 H2 H IH]; simpl.
  - eapply oi_file; [exact Hw|exact Hr|exact Hs|constructor].
  - eapply oi_file; [exact H1|exact H2|exact H3|exact IH].
  - eapply oi_skip; [exact H1|exact H2|exact IH].
Qed.
Lemma opened_in_skip : forall ws names r n e w, opened_in ws names r -> In w ws -> w_read w n = Err e ->
  opened_in ws (names ++ [n]) r.
Proof.
  intros ws names r n e w H Hw Hr. induction H as [|x j j' v names r H1 H2 H3 H IH|x e' v names r H1 H2 H IH]; simpl.
  - eapply oi_skip; [exact Hw|exact Hr|constructor].
  - eapply oi_file; [exact H1|exact H2|exact H3|exact IH].
  - eapply oi_skip; [exact H1|exact H2|exact IH].
Qed.
Lemma opened_in_mono : forall ws ws' names r, incl ws ws' -> opened_in ws names r -> opened_in ws' names r.
Proof.
  intros ws ws' names r Hi H. induction H as [|x j j' v names r H1 H2 H3 H IH|x e' v names r H1 H2 H IH].
  - constructor.
  - eapply oi_file; eauto.
  - eapply oi_skip; eauto.
Qed.
Lemma run_result_cons : forall n x i o, run_result ((n, x, i) :: o) = run_result o ++ [(n, i)].
Proof. intros. unfold run_result. simpl. rewrite map_app. reflexivity. Qed.

Ltac dead := intros; congruence.
Section W.
Variable w0 : world.
Variable L : list world.
Hypothesis Fr : fresh_world w0.
Hypothesis Sh : changes_show L.
Hypothesis Rc : Forall (right_cache L) (w_cache w0).

(** An entry which was right at one time, or was in the map at the beginning. *)
Definition known (e : fentry) : Prop :=
  (exists w i, In w L /\ w_stat w (fe_name e) = Some (fe_stat e) /\ w_read w (fe_name e) = Ok i /\ same_info (fe_info e) i) \/
  (exists l, In (CMap l) (w_cache w0) /\ In e l).
Lemma known_true : forall e w, known e -> In w L -> w_stat w (fe_name e) = Some (fe_stat e) ->
  exists i, w_read w (fe_name e) = Ok i /\ same_info (fe_info e) i.
Proof.
  intros e w [(w1 & i & H1 & H2 & H3 & H4)|(l & H1 & H2)] Hw Hs.
  - exists i. split; [|assumption]. rewrite <- H3. eapply Sh; eassumption.
  - rewrite Forall_forall in Rc. eapply (Rc _ H1); eauto.
Qed.

Definition known_map (m : files_data) : Prop := forall n e, In (n, e) m -> fe_name e = n /\ known e.
Definition known_open (w : world) (o : list (string * option nat * finfo)) : Prop :=
  forall n ino i, In (n, Some ino, i) o -> (ino < w_next w)%nat /\
    exists w', In w' L /\ w_names w' n = Some ino /\ w_inodes w' ino = w_inodes w ino /\ in_info (w_inodes w ino) = Ok i.
Record ginv (w : world) : Prop := {
  g_names : forall n i, w_names w n = Some i -> (i < w_next w)%nat;
  g_cache : forall l e, In (CMap l) (w_cache w) -> In e l -> known e;
  g_load : forall p names todo m, w_procs w p = OLoad names todo m -> (forall e, In e todo -> known e) /\ known_map m;
  g_open : forall p todo m o, w_procs w p = OOpen todo m o -> known_map m /\ known_open w o
}.
Lemma load_json_in : forall c l e, load_json c = Ok l -> In e l -> exists l', In (CMap l') c /\ In e l'.
Proof.
  induction c as [|x c IH]; intros l e H He; simpl in H; [injection H as <-; destruct He|].
  destruct x; try discriminate.
  - destruct (IH _ _ H He) as (l' & H1 & H2). exists l'. split; [now right|assumption].
  - destruct (IH _ _ H He) as (l' & H1 & H2). exists l'. split; [now right|assumption].
  - injection H as <-. eexists. split; [now left|assumption].
Qed.
Lemma known_load_entry : forall st m e, known_map m -> known e -> known_map (load_entry st m e).
Proof.
  intros st m e Hm He n e' H. unfold load_entry in H. destruct (st (fe_name e)); [|auto]. destruct (stat_eqb f (fe_stat e)); [|auto].
  apply in_dict_set in H. destruct H as [[-> ->]|H]; auto.
Qed.
Lemma known_saved : forall w m o, In w L -> known_map m -> known_open w o -> known_map (fold_left save_entry (to_save w o) m).
Proof.
  intros w m o Hw Hm Ho n e H. apply in_save_entries in H. destruct H as [H|(st & i & H1 & ->)]; [auto|]. simpl. split; [reflexivity|].
  unfold to_save in H1. apply in_filter_map in H1. destruct H1 as ([[n' [ino|]] i'] & H1 & E); simpl in E; [|discriminate].
  injection E as -> <- ->. apply in_rev in H1. destruct (Ho _ _ _ H1) as (_ & w' & X1 & X2 & X3 & X4).
  left. exists w', i. simpl. split; [assumption|]. unfold w_stat, w_read. rewrite X2, X3. split; [reflexivity|]. split; [assumption|].
  apply sorted_info_same.
Qed.
Lemma known_open_step : forall w w' o, known_open w o -> (w_next w <= w_next w')%nat ->
  (forall i, (i < w_next w)%nat -> w_inodes w' i = w_inodes w i) -> known_open w' o.
Proof.
  intros w w' o H Hn Hi n ino i Ho. destruct (H _ _ _ Ho) as (X1 & w1 & X2 & X3 & X4 & X5). split; [lia|].
  exists w1. rewrite Hi by assumption. auto.
Qed.
Lemma ginv_proc : forall w p st, In w L -> ginv w ->
  (forall names todo m, st = OLoad names todo m -> (forall e, In e todo -> known e) /\ known_map m) ->
  (forall todo m o, st = OOpen todo m o -> known_map m /\ known_open w o) ->
  ginv (set_proc w p st).
Proof.
  intros w p st Hw [G1 G2 G3 G4] Hl Ho. constructor; simpl; auto.
  - intros q names todo m E. destruct (Nat.eq_dec q p) as [->|Hq]; [rewrite upd_same in E; eauto|rewrite upd_other in E; eauto].
  - intros q todo m o E. destruct (Nat.eq_dec q p) as [->|Hq]; [rewrite upd_same in E; eauto|rewrite upd_other in E by assumption; destruct (G4 _ _ _ _ E); auto].
Qed.
Lemma ginv_step : forall w w', In w L -> ginv w -> wstep w w' -> ginv w'.
Proof.
  intros w w' Hw G H. destruct H.
  - destruct G as [G1 G2 G3 G4]. constructor; simpl; auto.
    + intros n j E. destruct (string_dec n name) as [->|Hn]; [rewrite supd_same in E; injection E as <-; lia|].
      rewrite supd_other in E by assumption. apply G1 in E. lia.
    + intros p todo m o E. destruct (G4 _ _ _ _ E) as [X1 X2]. split; [assumption|]. eapply known_open_step; [exact X2|simpl; lia|].
      intros k Hk. simpl. apply upd_other. lia.
  - destruct G as [G1 G2 G3 G4]. constructor; simpl; auto.
    intros n j E. unfold supd in E. destruct (String.eqb n name); [discriminate|eauto].
  - apply ginv_proc; try assumption; [|dead]. intros n t m E. injection E as <- <- <-. split; [|intros ? ? []].
    intros e He. destruct (load_json_in H0 He) as (l' & X1 & X2). eapply g_cache; eassumption.
  - apply ginv_proc; try assumption; [|dead]. intros n t m' E. injection E as <- <- <-. destruct (g_load G H) as [X1 X2].
    split; [intros; apply X1; now right|]. apply known_load_entry; [assumption|]. apply X1. now left.
  - apply ginv_proc; try assumption; [dead|]. intros t m' o E. injection E as <- <- <-. destruct (g_load G H) as [X1 X2].
    split; [assumption|]. intros ? ? ? [].
  - apply ginv_proc; try assumption; [dead|]. intros t m' o' E. injection E as <- <- <-. destruct (g_open G H) as [X1 X2].
    split; [assumption|]. intros n ino j [E|X]; [congruence|eauto].
  - apply ginv_proc; try assumption; [dead|]. intros t m' o' E. injection E as <- <- <-. destruct (g_open G H) as [X1 X2].
    split; [assumption|]. intros n k j [E|X]; [|eauto]. injection E as <- <- <-. split; [eapply g_names; eassumption|]. exists w. auto.
  - apply ginv_proc; try assumption; [dead|]. intros t m' o' E. injection E as <- <- <-. exact (g_open G H).
  - destruct (g_open G H) as [X1 X2]. destruct G as [G1 G2 G3 G4]. constructor; simpl; auto.
    + intros l e Hl He. destruct (need_save m (to_save w o)); [|eauto]. rewrite in_app_iff in Hl. destruct Hl as [Hl|[Hl|Hl]].
      * eapply G2; [|exact He]. rewrite H0. apply in_or_app. now left.
      * injection Hl as <-. apply in_save_data in He. destruct He as [k He]. eapply known_saved; eassumption.
      * eapply G2; [|exact He]. rewrite H0. apply in_or_app. right. now right.
    + intros q names todo m' E. destruct (Nat.eq_dec q p) as [->|Hq]; [rewrite upd_same in E; discriminate|rewrite upd_other in E; eauto].
    + intros q todo m' o' E. destruct (Nat.eq_dec q p) as [->|Hq]; [rewrite upd_same in E; discriminate|].
      rewrite upd_other in E by assumption. destruct (G4 _ _ _ _ E). auto.
  - apply ginv_proc; try assumption; dead.
Qed.
Lemma ginv_init : In w0 L -> ginv w0.
Proof.
  intros Hw. destruct Fr as [F1 F2]. constructor.
  - assumption.
  - intros l e Hl He. right. eauto.
  - intros p names todo m E. destruct (F2 p). congruence.
  - intros p todo m o E. destruct (F2 p). congruence.
Qed.
Lemma ginv_exec : forall l, exec wstep w0 l -> incl l L -> forall w r, l = w :: r -> ginv w.
Proof.
  intros l H. induction H as [|w w' l H IH St]; intros Hi v r E; injection E as <- <-.
  - apply ginv_init. apply Hi. now left.
  - eapply ginv_step; [| |exact St]; [apply Hi; right; now left|]. eapply IH; [|reflexivity]. intros x Hx. apply Hi. now right.
Qed.

(** What a process has found since it started. *)
Definition seen_map (ws : list world) (m : files_data) : Prop :=
  forall n e, In (n, e) m -> exists w, In w ws /\ w_stat w n = Some (fe_stat e).
Definition pinv (ws : list world) (names : list string) (st : opener) : Prop :=
  match st with
  | OIdle ns => ns = names
  | OLoad ns _ m => ns = names /\ seen_map ws m
  | OOpen todo m o => seen_map ws m /\ exists pre, names = pre ++ todo /\ opened_in ws pre (run_result o)
  | ODone m o => opened_in ws names (run_result o)
  end.
Lemma pinv_mono : forall ws ws' names st, incl ws ws' -> pinv ws names st -> pinv ws' names st.
Proof.
  intros ws ws' names st Hi. assert (SM : forall m, seen_map ws m -> seen_map ws' m).
  { intros m H n e Hn. destruct (H _ _ Hn) as (w & H1 & H2). exists w. auto. }
  destruct st as [ns|ns todo m|todo m o|m o]; simpl; try tauto.
  - intros [H1 H2]. auto.
  - intros [H1 (pre & H2 & H3)]. split; [auto|]. exists pre. split; [assumption|]. eapply opened_in_mono; eassumption.
  - intros H. eapply opened_in_mono; eassumption.
Qed.
Lemma pinv_step : forall ws names w w' p, In w L -> In w ws -> incl ws L -> ginv w -> wstep w w' ->
  pinv ws names (w_procs w p) -> pinv ws names (w_procs w' p).
Proof.
  intros ws names w w' p HwL Hw Hi G St P.
  destruct St; simpl; try assumption;
    (destruct (Nat.eq_dec p p0) as [->|Hp]; [rewrite upd_same|rewrite upd_other by assumption; assumption]);
    rewrite H in P; simpl in P |- *.
  - split; [assumption|intros ? ? []].
  - destruct P as [P1 P2]. split; [assumption|]. intros n e' K. unfold load_entry in K.
    destruct (w_stat w (fe_name e)) as [st|] eqn:Es; [|auto]. destruct (stat_eqb st (fe_stat e)) eqn:Eq; [|auto].
    apply in_dict_set in K. destruct K as [[-> ->]|K]; [|auto]. exists w. split; [assumption|]. apply stat_eqb_eq in Eq. now subst.
  - destruct P as [-> P]. split; [assumption|]. exists []. split; [reflexivity|constructor].
  - destruct P as [P1 (pre & -> & P2)]. split; [assumption|]. exists (pre ++ [name]). split; [now rewrite <- app_assoc|].
    rewrite run_result_cons. unfold map_get in H0. destruct (dict_get name m) as [e|] eqn:Ed; [|discriminate]. injection H0 as <-.
    apply dict_get_In in Ed. destruct (P1 _ _ Ed) as (w1 & W1 & W2). destruct (g_open G H) as [K _]. destruct (K _ _ Ed) as [K1 K2]. subst name.
    destruct (known_true K2 (Hi _ W1) W2) as (i & R1 & R2). eapply opened_in_file; eassumption.
  - destruct P as [P1 (pre & -> & P2)]. split; [assumption|]. exists (pre ++ [name]). split; [now rewrite <- app_assoc|].
    rewrite run_result_cons. eapply opened_in_file; [eassumption|exact Hw| |apply same_info_refl]. unfold w_read. now rewrite H1.
  - destruct P as [P1 (pre & -> & P2)]. split; [assumption|]. exists (pre ++ [name]). split; [now rewrite <- app_assoc|].
    eapply opened_in_skip; eassumption.
  - destruct P as [P1 (pre & -> & P2)]. now rewrite app_nil_r.
  - destruct P as [P1 (pre & -> & P2)]. now rewrite app_nil_r.
Qed.
Lemma exec_head : forall step wa l, exec step wa l -> exists w r, l = w :: r.
Proof. intros step wa l H. destruct H; eauto. Qed.
Lemma pinv_exec : forall wb l2 p names l1, w_procs wb p = OIdle names -> exec wstep w0 (l1 ++ wb :: l2) -> incl (l1 ++ wb :: l2) L ->
  forall w r, l1 ++ [wb] = w :: r -> pinv (l1 ++ [wb]) names (w_procs w p).
Proof.
  intros wb l2 p names. induction l1 as [|v l1 IH]; intros Ei Ex Hi w r E.
  - simpl in E. injection E as <- <-. rewrite Ei. reflexivity.
  - simpl in E. injection E as <- <-. simpl in Ex. inversion Ex as [E1|v1 v2 l' Ex' St E1]. 
    { destruct l1; discriminate. }
    rename H into E2.
    subst v2. destruct (l1 ++ [wb]) as [|u r] eqn:Eu; [destruct l1; discriminate|].
    assert (u = v1).
    { destruct l1; simpl in *; congruence. } subst u.
    assert (Hi' : incl (l1 ++ wb :: l2) L) by (intros x Hx; apply Hi; simpl; now right).
    rewrite <- E2 in IH, Hi'. assert (X := IH Ei Ex' Hi' _ _ eq_refl).
    simpl. rewrite Eu. eapply pinv_mono with (ws := v1 :: r); [intros x Hx; now right|].
    eapply pinv_step; [| | | |exact St|exact X].
    + apply Hi'. now left.
    + now left.
    + intros x Hx. rewrite <- Eu in Hx. apply Hi. simpl. right. rewrite in_app_iff in *. simpl in *. tauto.
    + eapply ginv_exec; [exact Ex'|exact Hi'|reflexivity].
Qed.
End W.

Lemma cache_transparent : forall w0 l1 wb l2 p names w r m o,
  fresh_world w0 -> exec wstep w0 (l1 ++ wb :: l2) -> changes_show (l1 ++ wb :: l2) ->
  Forall (right_cache (l1 ++ wb :: l2)) (w_cache w0) ->
  w_procs wb p = OIdle names -> l1 ++ [wb] = w :: r -> w_procs w p = ODone m o ->
  opened_in (l1 ++ [wb]) names (run_result o).
Proof.
  intros w0 l1 wb l2 p names w r m o Fr Ex Sh Rc Ei E Ed.
  assert (X := pinv_exec (L := l1 ++ wb :: l2) Fr Sh Rc Ei Ex (fun x H => H) E). now rewrite Ed in X.
Qed.
Lemma cache_right : forall w0 w l, fresh_world w0 -> exec wstep w0 (w :: l) -> changes_show (w :: l) ->
  Forall (right_cache (w :: l)) (w_cache w0) -> Forall (right_cache (w :: l)) (w_cache w).
Proof.
  intros w0 w l Fr Ex Sh Rc. apply Forall_forall. intros c Hc k e v -> He Hv Hs.
  assert (G := ginv_exec (L := w :: l) Fr Ex (fun x H => H) eq_refl).
  eapply known_true; try eassumption. eapply g_cache; eassumption.
Qed.
(** If nothing changes while the run is opened, the result is that of opening without a map. *)
Lemma opened_fresh : forall ws names r read, opened_in ws names r ->
  (forall w n, In w ws -> In n names -> w_read w n = read n) -> Forall2 same_result r (fresh_open read names).
Proof.
  intros ws names r read H. induction H as [|n i i' w names r H1 H2 H3 H IH|n e w names r H1 H2 H IH]; intros Hc; simpl.
  - constructor.
  - rewrite <- (Hc w n H1) by now left. rewrite H2. constructor; [split; auto|]. apply IH. intros. apply Hc; [assumption|now right].
  - rewrite <- (Hc w n H1) by now left. rewrite H2. apply IH. intros. apply Hc; [assumption|now right].
Qed.
