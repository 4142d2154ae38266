(** Proofs about lsxfel, continued: the line for a run, exit codes. *)
From Verif Require Import Base PyStr M_Files M_Reader M_FilesMap M_Stacking M_Info M_OpenRun M_Lsxfel S_Glob S_Open S_Stacking S_Info S_Lsxfel
  L_Base L_Stacking L_Open L_OpenRun L_FilesMap2 L_Glob L_Info L_Array2 L_Lsxfel.
Set Implicit Arguments.
Unset Strict Implicit.
Local Open Scope string_scope.
Local Open Scope list_scope.

Definition of_group (g f : string) : bool := match segment_group f with Some g' => String.eqb g g' | None => false end.
Definition det_b (f : string) : bool :=
  match segment_group f with Some _ => match filename_info f with Ok i => fn_detector i | Err _ => false end | None => false end.
Definition other_b (f : string) : bool :=
  match segment_group f with Some _ => match filename_info f with Ok i => negb (fn_detector i) | Err _ => false end | None => false end.

Definition scan_inv (done : list string) (st : list (string * list string) * nat * nat) : Prop :=
  let '(groups, nd, no) := st in
  NoDup (map fst groups) /\
  (forall g fs, In (g, fs) groups -> fs = filter (of_group g) done /\ fs <> []) /\
  (forall f g, In f done -> segment_group f = Some g -> In g (map fst groups)) /\
  (forall f g, In f done -> segment_group f = Some g -> exists i, filename_info f = Ok i) /\
  nd = List.length (filter det_b done) /\ no = List.length (filter other_b done).

Lemma group_add_keys : forall g f groups g', In g' (map fst (group_add g f groups)) <-> g' = g \/ In g' (map fst groups).
Proof.
  intros g f groups g'. induction groups as [|[k fs] r IH]; cbn; [intuition congruence|].
  destruct (String.eqb_spec g k) as [<-|N]; cbn; [intuition congruence|]. rewrite IH. intuition congruence.
Qed.

Lemma group_add_NoDup : forall g f groups, NoDup (map fst groups) -> NoDup (map fst (group_add g f groups)).
Proof.
  intros g f. induction groups as [|[k fs] r IH]; intros H; cbn; [repeat constructor; intros []|].
  inversion H; subst. destruct (String.eqb_spec g k) as [<-|N]; cbn; [now constructor|]. constructor; [|now apply IH].
  intros X. apply group_add_keys in X as [X|X]; [congruence|contradiction].
Qed.

Lemma group_add_spec : forall done f g groups, segment_group f = Some g -> NoDup (map fst groups) ->
  (forall g' fs, In (g', fs) groups -> fs = filter (of_group g') done /\ fs <> []) ->
  (In g (map fst groups) \/ filter (of_group g) done = []) ->
  forall g' fs, In (g', fs) (group_add g f groups) -> fs = filter (of_group g') (done ++ [f]) /\ fs <> [].
Proof.
  intros done f g. induction groups as [|[k fs] r IH]; intros Hf D H Hn g' fs' X; cbn [group_add] in X.
  - destruct X as [X|[]]. injection X as <- <-. rewrite filter_app. destruct Hn as [[]| ->]. cbn. unfold of_group. rewrite Hf, String.eqb_refl. split; [reflexivity|discriminate].
  - cbn in D. inversion D; subst. destruct (String.eqb_spec g k) as [<-|N].
    + destruct X as [X|X].
      * injection X as <- <-. destruct (H g fs (or_introl eq_refl)) as [E _]. rewrite filter_app, <- E. cbn. unfold of_group. rewrite Hf, String.eqb_refl. split; [reflexivity|].
        intros X. apply app_eq_nil in X as [_ X]. discriminate.
      * destruct (H g' fs' (or_intror X)) as [E Nn]. rewrite filter_app, <- E. cbn. unfold of_group at 1. rewrite Hf.
        destruct (String.eqb_spec g' g) as [->|Ng]; [|rewrite app_nil_r; split; [reflexivity|exact Nn]].
        destruct H2. change g with (fst (g, fs')). now apply in_map.
    + destruct X as [X|X].
      * injection X as <- <-. destruct (H k fs (or_introl eq_refl)) as [E Nn]. rewrite filter_app, <- E. cbn. unfold of_group at 1. rewrite Hf.
        destruct (String.eqb_spec k g) as [->|_]; [congruence|]. rewrite app_nil_r. split; [reflexivity|exact Nn].
      * apply IH with (1 := Hf) (4 := X) || apply (fun A B C => IH Hf A B C g' fs' X); [assumption|intros; apply H; now right|].
        destruct Hn as [[Hn|Hn]|Hn]; [cbn in Hn; congruence|now left|now right].
Qed.

Lemma scan_step_inv : forall done st f st', ~ has_char "/" f -> scan_inv done st -> scan_step st f = Ok st' -> scan_inv (done ++ [f]) st'.
Proof.
  intros done [[groups nd] no] f st' Nf (D & H1 & H2 & H3 & -> & ->) H. unfold scan_step in H. rewrite (basename_id Nf) in H.
  destruct (segment_group f) as [g|] eqn:E.
  - apply bind_ok in H as (i & Hi & H). apply Ok_inj in H. subst st'.
    assert (K : scan_inv (done ++ [f]) (group_add g f groups, List.length (filter det_b (done ++ [f])), List.length (filter other_b (done ++ [f])))).
    { split; [now apply group_add_NoDup|]. split.
      - apply (group_add_spec E D H1). destruct (in_dec string_dec g (map fst groups)) as [I|I]; [now left|right].
        destruct (filter (of_group g) done) as [|x l] eqn:F; [reflexivity|exfalso]. assert (X : In x (filter (of_group g) done)) by (rewrite F; now left).
        apply filter_In in X as [X1 X2]. unfold of_group in X2. destruct (segment_group x) as [g'|] eqn:Ex; [|discriminate]. apply String.eqb_eq in X2. subst g'. exact (I (H2 _ _ X1 Ex)).
      - repeat split; intros x g' Hx Hg.
        + apply group_add_keys. apply in_app_iff in Hx as [Hx|[<-|[]]]; [right; exact (H2 _ _ Hx Hg)|left; congruence].
        + apply in_app_iff in Hx as [Hx|[<-|[]]]; [exact (H3 _ _ Hx Hg)|eauto]. }
    assert (C1 : List.length (filter det_b (done ++ [f])) = (if fn_detector i then S (List.length (filter det_b done)) else List.length (filter det_b done))).
    { rewrite filter_app, app_length. cbn. unfold det_b at 2. rewrite E, Hi. destruct (fn_detector i); cbn; lia. }
    assert (C2 : List.length (filter other_b (done ++ [f])) = (if fn_detector i then List.length (filter other_b done) else S (List.length (filter other_b done)))).
    { rewrite filter_app, app_length. cbn. unfold other_b at 2. rewrite E, Hi. destruct (fn_detector i); cbn; lia. }
    rewrite C1, C2 in K. destruct (fn_detector i); exact K.
  - apply Ok_inj in H. subst st'. split; [exact D|].
    assert (C : forall b, b f = false -> filter b (done ++ [f]) = filter b done) by (intros b Hb; rewrite filter_app; cbn; rewrite Hb, app_nil_r; reflexivity).
    repeat split.
    + destruct (H1 _ _ H) as [Hx _]. rewrite C; [exact Hx|]. unfold of_group. now rewrite E.
    + apply (H1 _ _ H).
    + intros x g' Hx Hg. apply in_app_iff in Hx as [Hx|[<-|[]]]; [exact (H2 _ _ Hx Hg)|congruence].
    + intros x g' Hx Hg. apply in_app_iff in Hx as [Hx|[<-|[]]]; [exact (H3 _ _ Hx Hg)|congruence].
    + rewrite C; [reflexivity|]. unfold det_b. now rewrite E.
    + rewrite C; [reflexivity|]. unfold other_b. now rewrite E.
Qed.

Lemma scan_inv_all : forall l done st st', Forall (fun f => ~ has_char "/" f) l -> scan_inv done st -> foldM scan_step st l = Ok st' -> scan_inv (done ++ l) st'.
Proof.
  induction l as [|f l IH]; intros done st st' F H E; cbn in E.
  - apply Ok_inj in E. subst. now rewrite app_nil_r.
  - inversion F; subst. apply bind_ok in E as (s1 & E1 & E2). replace (done ++ f :: l) with ((done ++ [f]) ++ l) by now rewrite <- app_assoc.
    exact (IH _ _ _ H3 (scan_step_inv H2 H E1) E2).
Qed.

Lemma scan_total : forall l st, Forall (fun f => ~ has_char "/" f) l -> (forall f, In f l -> data_file f -> exists i, filename_info f = Ok i) ->
  exists st', foldM scan_step st l = Ok st'.
Proof.
  induction l as [|f l IH]; intros [[gr nd] no] F H; [eexists; reflexivity|]. inversion F; subst. cbn [foldM]. unfold scan_step at 1. rewrite (basename_id H2).
  destruct (segment_group f) as [g|] eqn:E.
  - apply segment_iff in E. destruct (H f (or_introl eq_refl) (ex_intro _ g E)) as [i Hi]. rewrite Hi. cbn [bind]. apply IH; [assumption|]. intros x Hx. apply H. now right.
  - cbn [bind]. apply IH; [assumption|]. intros x Hx. apply H. now right.
Qed.

Lemma scan_err : forall l st e, Forall (fun f => ~ has_char "/" f) l -> foldM scan_step st l = Err e ->
  e = EAssertionError /\ exists f, In f l /\ data_file f /\ forall k r s g, ~ four_parts f k r s g.
Proof.
  induction l as [|f l IH]; intros [[gr nd] no] e F H; [discriminate|]. inversion F; subst. cbn [foldM] in H. unfold scan_step at 1 in H. rewrite (basename_id H2) in H.
  destruct (segment_group f) as [g|] eqn:E.
  - destruct (filename_info f) as [i|e'] eqn:Hi; cbn [bind] in H.
    + destruct (IH _ _ H3 H) as (He & x & Hx & Hd). split; [exact He|]. exists x. split; [now right|exact Hd].
    + injection H as ->. destruct (filename_err Hi) as [He Hn]. split; [exact He|]. exists f. split; [now left|]. split; [exists g; now apply segment_iff|]. rewrite (basename_id H2) in Hn. exact Hn.
  - cbn [bind] in H. destruct (IH _ _ H3 H) as (He & x & Hx & Hd). split; [exact He|]. exists x. split; [now right|exact Hd].
Qed.

Lemma shortest_spec : forall groups, groups <> [] -> exists g, In (g, shortest groups) groups /\
  forall g' fs', In (g', fs') groups -> (List.length (shortest groups) <= List.length fs')%nat.
Proof.
  intros groups N. unfold shortest. set (leb := fun a b : list string => (List.length a <=? List.length b)%nat).
  pose proof (isort_perm leb (map snd groups)) as P.
  assert (S : Sorted (fun a b => leb a b = true) (isort leb (map snd groups))).
  { apply isort_Sorted. intros a b. unfold leb. destruct (Nat.leb_spec (List.length a) (List.length b)); [now left|right]. apply Nat.leb_le. lia. }
  assert (S' : StronglySorted (fun a b => leb a b = true) (isort leb (map snd groups))).
  { apply Sorted_StronglySorted; [|exact S]. intros a b c X Y. unfold leb in *. apply Nat.leb_le in X, Y. apply Nat.leb_le. lia. }
  destruct (isort leb (map snd groups)) as [|h t] eqn:E.
  - symmetry in P. apply Permutation_nil in P. destruct groups; [congruence|discriminate].
  - cbn [hd]. assert (I : In h (map snd groups)) by (apply (Permutation_in _ (Permutation_sym P)); now left).
    apply in_map_iff in I as ([g h'] & Hh & I). cbn in Hh. subst h'. exists g. split; [exact I|]. intros g' fs' I'.
    assert (J : In fs' (h :: t)) by (apply (Permutation_in _ P); change fs' with (snd (g', fs')); now apply in_map).
    destruct J as [->|J]; [lia|]. inversion S'; subst. rewrite Forall_forall in H2. apply Nat.leb_le. exact (H2 _ J).
Qed.

Lemma how_many_filter : forall A (P : A -> Prop) b (l : list A), NoDup l -> (forall x, P x <-> In x l /\ b x = true) -> how_many P (List.length (filter b l)).
Proof. intros A P b l N H. exists (filter b l). split; [now apply NoDup_filter|]. split; [|reflexivity]. intros x. rewrite filter_In. symmetry. apply H. Qed.

Lemma how_many_fun : forall A (P Q : A -> Prop) n m, how_many P n -> how_many Q m -> (forall x, P x <-> Q x) -> n = m.
Proof.
  intros A P Q n m (l & N & H & <-) (l' & N' & H' & <-) E. apply Permutation_length. apply NoDup_Permutation; try assumption.
  intros x. rewrite H, H'. apply E.
Qed.

Section Ls.
Context {V : Type}.
Variable E : env (V := V).
Variables path indent : string.
Hypothesis listed_once : NoDup (e_list E path).
Hypothesis names : Forall (fun f => ~ has_char "/" f) (e_list E path).

Lemma names_sorted : Forall (fun f => ~ has_char "/" f) (str_sort (e_list E path)).
Proof. rewrite Forall_forall in *. intros f H. apply names. now apply in_str_sort. Qed.
Lemma once_sorted : NoDup (str_sort (e_list E path)).
Proof. eapply Permutation_NoDup; [apply str_sort_perm|assumption]. Qed.

Lemma det_b_iff : forall f, ~ has_char "/" f -> (forall g, segment_group f = Some g -> exists i, filename_info f = Ok i) ->
  (det_b f = true <-> data_file f /\ detector_file f) /\ (other_b f = true <-> data_file f /\ ~ detector_file f).
Proof.
  intros f N H. unfold det_b, other_b. destruct (segment_group f) as [g|] eqn:Es.
  - destruct (H _ eq_refl) as [i Hi]. rewrite Hi. pose proof (detector_iff Hi) as D. rewrite (basename_id N) in D. rewrite <- D.
    apply segment_iff in Es. assert (data_file f) by (exists g; exact Es). split; [tauto|]. rewrite negb_true_iff. destruct (fn_detector i); intuition congruence.
  - split; (split; [discriminate|]); intros [[g Hg] _]; apply segment_iff in Hg; congruence.
Qed.

(** ** The line for a run *)
Lemma summarise_run_ok : forall o, summarise_run E path indent = (o, Ok tt) ->
  exists n d k b, o = [LRun indent b n d k] /\ file_name path b /\
    (exists g m, how_many (in_sequence E path g) m /\ (0 < m)%nat /\
       (forall g' m', how_many (in_sequence E path g') m' -> (0 < m')%nat -> (m <= m')%nat) /\
       how_many (fun t => exists f, in_sequence E path g f /\ train_in E path f t) n) /\
    how_many (fun f => In f (e_list E path) /\ data_file f /\ detector_file f) d /\
    how_many (fun f => In f (e_list E path) /\ data_file f /\ ~ detector_file f) k.
Proof.
  intros o H. unfold summarise_run in H.
  destruct (foldM scan_step ([], 0%nat, 0%nat) (str_sort (e_list E path))) as [[[groups nd] no]|e] eqn:Ef; [|discriminate].
  assert (I : scan_inv (str_sort (e_list E path)) (groups, nd, no)).
  { rewrite <- (app_nil_l (str_sort _)). apply (scan_inv_all names_sorted (st := ([], 0%nat, 0%nat))); [|exact Ef]. repeat split; try constructor; contradiction. }
  destruct I as (D & H1 & H2 & H3 & -> & ->).
  cbn [wbind lift] in H. destruct groups as [|gr0 groups0] eqn:Eg; [discriminate|]. rewrite <- Eg in *. assert (Ng : groups <> []) by (subst; discriminate).
  replace (match groups with [] => lift (Err EValueError) | _ :: _ => _ end) with
    (wbind (lift (mapM (fun f => let* d := e_h5 E (path_join path f) in Ok (dc_tids d)) (shortest groups)))
      (fun ids => emit (LRun indent (basename path) (List.length (zdedup (List.concat ids))) (List.length (filter det_b (str_sort (e_list E path)))) (List.length (filter other_b (str_sort (e_list E path))))))) in H by (destruct groups; [congruence|reflexivity]).
  destruct (mapM _ (shortest groups)) as [ids|e] eqn:Em; [|discriminate]. cbn [wbind lift emit app] in H. injection H as <-.
  eexists _, _, _, _. split; [reflexivity|]. split; [apply basename_spec|].
  destruct (shortest_spec Ng) as (g & Hg & Hs). destruct (H1 _ _ Hg) as [Hf Hn].
  assert (Seq : forall g' fs', In (g', fs') groups -> forall f, In f fs' <-> in_sequence E path g' f).
  { intros g' fs' I' f. destruct (H1 _ _ I') as [-> _]. rewrite filter_In, in_str_sort. unfold in_sequence. rewrite <- segment_iff. unfold of_group.
    destruct (segment_group f) as [x|]; [|intuition congruence]. destruct (String.eqb_spec g' x); intuition congruence. }
  assert (Cnt : forall g' fs', In (g', fs') groups -> how_many (in_sequence E path g') (List.length fs')).
  { intros g' fs' I'. exists fs'. split; [|split; [apply (Seq _ _ I')|reflexivity]]. destruct (H1 _ _ I') as [-> _]. apply NoDup_filter, once_sorted. }
  split; [|split].
  - exists g, (List.length (shortest groups)). split; [exact (Cnt _ _ Hg)|]. split; [destruct (shortest groups); [congruence|cbn; lia]|]. split.
    + intros g' m' Hm Pm. destruct Hm as (l & Nl & Il & <-). destruct l as [|x l]; [cbn in Pm; lia|].
      assert (X : in_sequence E path g' x) by (apply Il; now left). destruct X as [X1 X2].
      assert (Y : In g' (map fst groups)) by (apply (H2 x); [now apply in_str_sort|now apply segment_iff]).
      apply in_map_iff in Y as ([k fs'] & Hk & Y). cbn in Hk. subst k. pose proof (Hs _ _ Y) as L.
      replace (List.length (x :: l)) with (List.length fs'); [exact L|]. apply (how_many_fun (Cnt _ _ Y) (ex_intro _ (x :: l) (conj Nl (conj Il eq_refl)))). reflexivity.
    + exists (zdedup (List.concat ids)). split; [apply zdedup_NoDup|]. split; [|reflexivity]. intros t. rewrite zdedup_In, in_concat.
      apply mapM_ok_iff in Em. split.
      * intros (ts & Hts & Ht). destruct (Forall2_In_r Em Hts) as (f & Hf' & Hd). apply bind_ok in Hd as (d & Hd & Hts'). apply Ok_inj in Hts'. subst ts.
        exists f. split; [now apply (Seq _ _ Hg)|]. exists d. now split.
      * intros (f & Hf' & d & Hd & Ht). apply (Seq _ _ Hg) in Hf'. destruct (Forall2_In_l Em Hf') as (ts & Hts & Hd'). rewrite Hd in Hd'. cbn [bind] in Hd'. apply Ok_inj in Hd'. subst ts. eauto.
  - apply how_many_filter; [apply once_sorted|]. intros f. rewrite in_str_sort. split.
    + intros (I & J & K). split; [exact I|]. apply det_b_iff; [rewrite Forall_forall in names; now apply names| |now split]. intros g' Hg'. apply (H3 f g'); [now apply in_str_sort|exact Hg'].
    + intros (I & J). split; [exact I|]. apply det_b_iff in J; [exact J|rewrite Forall_forall in names; now apply names|]. intros g' Hg'. apply (H3 f g'); [now apply in_str_sort|exact Hg'].
  - apply how_many_filter; [apply once_sorted|]. intros f. rewrite in_str_sort. split.
    + intros (I & J & K). split; [exact I|]. apply det_b_iff; [rewrite Forall_forall in names; now apply names| |now split]. intros g' Hg'. apply (H3 f g'); [now apply in_str_sort|exact Hg'].
    + intros (I & J). split; [exact I|]. apply det_b_iff in J; [exact J|rewrite Forall_forall in names; now apply names|]. intros g' Hg'. apply (H3 f g'); [now apply in_str_sort|exact Hg'].
Qed.

Lemma summarise_run_total : (exists f, In f (e_list E path) /\ data_file f) ->
  (forall f, In f (e_list E path) -> data_file f -> (exists k r s g, four_parts f k r s g) /\ exists d, e_h5 E (path_join path f) = Ok d) ->
  exists o, summarise_run E path indent = (o, Ok tt).
Proof.
  intros (f0 & I0 & g0 & D0) H. unfold summarise_run.
  destruct (@scan_total (str_sort (e_list E path)) ([], 0%nat, 0%nat) names_sorted) as [[[groups nd] no] Ef].
  { intros f I Df. apply (proj1 (in_str_sort _ _)) in I. destruct (H f I Df) as [(k & r & s & g & F) _]. apply (@filename_total f k r s g). rewrite basename_id; [exact F|]. rewrite Forall_forall in names; now apply names. }
  assert (I : scan_inv (str_sort (e_list E path)) (groups, nd, no)).
  { rewrite <- (app_nil_l (str_sort _)). apply (scan_inv_all names_sorted (st := ([], 0%nat, 0%nat))); [|exact Ef]. repeat split; try constructor; contradiction. }
  destruct I as (D & H1 & H2 & _). rewrite Ef. cbn [wbind lift].
  assert (Ng : groups <> []). { apply segment_iff in D0. specialize (H2 f0 g0 (proj2 (in_str_sort _ _) I0) D0). intros ->. exact H2. }
  destruct (shortest_spec Ng) as (g & Hg & _). destruct (H1 _ _ Hg) as [Hf _].
  destruct (@mapM_total string (list Z) (fun f => let* d := e_h5 E (path_join path f) in Ok (dc_tids d)) (shortest groups)) as [ids Hi].
  { intros f I. rewrite Hf in I. apply filter_In in I as [I Ho]. apply (proj1 (in_str_sort _ _)) in I. unfold of_group in Ho. destruct (segment_group f) as [x|] eqn:Es; [|discriminate].
    apply segment_iff in Es. destruct (H f I (ex_intro _ x Es)) as [_ [d Hd]]. rewrite Hd. eexists. reflexivity. }
  destruct groups; [congruence|]. rewrite Hi. eexists. reflexivity.
Qed.

Lemma summarise_run_none : (forall f, In f (e_list E path) -> ~ data_file f) -> summarise_run E path indent = ([], Err EValueError).
Proof.
  intros H. unfold summarise_run.
  destruct (@scan_total (str_sort (e_list E path)) ([], 0%nat, 0%nat) names_sorted) as [[[groups nd] no] Ef].
  { intros f I Df. apply (proj1 (in_str_sort _ _)) in I. destruct (H f I Df). }
  assert (I : scan_inv (str_sort (e_list E path)) (groups, nd, no)).
  { rewrite <- (app_nil_l (str_sort _)). apply (scan_inv_all names_sorted (st := ([], 0%nat, 0%nat))); [|exact Ef]. repeat split; try constructor; contradiction. }
  destruct I as (D & H1 & _). rewrite Ef. cbn [wbind lift]. destruct groups as [|[g fs] r]; [reflexivity|]. exfalso.
  destruct (H1 g fs (or_introl eq_refl)) as [Hf Hn]. destruct fs as [|f fs]; [congruence|]. assert (X : In f (filter (of_group g) (str_sort (e_list E path)))) by (rewrite <- Hf; now left).
  apply filter_In in X as [X1 X2]. apply (proj1 (in_str_sort _ _)) in X1. unfold of_group in X2. destruct (segment_group f) as [x|] eqn:Es; [|discriminate]. apply segment_iff in Es. apply (H f X1). exists x. exact Es.
Qed.

Lemma summarise_run_odd : (exists f, In f (e_list E path) /\ data_file f /\ forall k r s g, ~ four_parts f k r s g) -> summarise_run E path indent = ([], Err EAssertionError).
Proof.
  intros (f & I & [g Hg] & N). unfold summarise_run.
  destruct (foldM scan_step ([], 0%nat, 0%nat) (str_sort (e_list E path))) as [[[groups nd] no]|e] eqn:Ef.
  - exfalso. assert (J : scan_inv (str_sort (e_list E path)) (groups, nd, no)).
    { rewrite <- (app_nil_l (str_sort _)). apply (scan_inv_all names_sorted (st := ([], 0%nat, 0%nat))); [|exact Ef]. repeat split; try constructor; contradiction. }
    destruct J as (_ & _ & _ & H3 & _). apply segment_iff in Hg. destruct (H3 f g (proj2 (in_str_sort _ _) I) Hg) as [i Hi]. destruct (filename_ok Hi) as (k & r & s & g' & F & _).
    rewrite basename_id in F; [exact (N _ _ _ _ F)|]. rewrite Forall_forall in names; now apply names.
  - destruct (scan_err names_sorted Ef) as [-> _]. reflexivity.
Qed.
End Ls.
