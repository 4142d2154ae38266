(** The table get_dataframe returns. *)
From Verif Require Import Base PyStr M_Files M_Reader M_Select M_Series M_Frame S_Reader S_Coll S_Avail S_Series S_Frame S_Frame2
  L_Base L_Array2 L_GetArray L_Select L_Series L_Frame L_Grid.
Set Implicit Arguments.
Unset Strict Implicit.
Local Open Scope list_scope.

Lemma label_eqb_iff a b : label_eqb a b = true <-> a = b.
Proof.
  destruct a as [t [p|]], b as [u [q|]]; unfold label_eqb; cbn; rewrite ?andb_true_iff, ?Z.eqb_eq; split; try intros [-> ->];
    try (intros [-> X]; discriminate X); try (intros [-> _]); try reflexivity; intros E; try discriminate E; injection E; intros; subst; auto.
Qed.
Lemma label_eqb_refl a : label_eqb a a = true. Proof. now apply label_eqb_iff. Qed.
Lemma labels_eqb_iff : forall a b, labels_eqb a b = true <-> a = b.
Proof.
  induction a as [|x a IH]; intros [|y b]; cbn; try (split; [discriminate|discriminate]); try tauto.
  rewrite andb_true_iff, label_eqb_iff, IH. split; [intros [-> ->]; reflexivity|intros E; injection E; auto].
Qed.
Lemma existsb_label x l : existsb (label_eqb x) l = true <-> In x l.
Proof.
  rewrite existsb_exists. split; [intros (y & H & E); apply label_eqb_iff in E; now subst|]. intros H. exists x. now rewrite label_eqb_refl.
Qed.
Lemma labels_unique_iff : forall l, labels_unique l = true <-> NoDup l.
Proof.
  induction l as [|x l IH]; cbn; [split; [constructor|reflexivity]|]. rewrite andb_true_iff, negb_true_iff, IH. split.
  - intros [H1 H2]. constructor; [|assumption]. intros H. apply existsb_label in H. congruence.
  - intros H. inversion H; subst. split; [|assumption]. apply not_true_iff_false. now rewrite existsb_label.
Qed.
Lemma labels_dedup_In a : forall l, In a (labels_dedup l) <-> In a l.
Proof.
  induction l as [|x l IH]; cbn; [tauto|]. rewrite filter_In, negb_true_iff, IH. split; [tauto|]. intros [->|H]; [now left|].
  destruct (row_label_dec x a) as [->|N]; [now left|]. right. split; [assumption|]. apply not_true_iff_false. rewrite label_eqb_iff. congruence.
Qed.
Lemma NoDup_filter' A (f : A -> bool) l : NoDup l -> NoDup (filter f l).
Proof.
  induction 1 as [|x l H N IH]; cbn; [constructor|]. destruct (f x); [|assumption]. constructor; [|assumption]. rewrite filter_In. tauto.
Qed.
Lemma labels_dedup_NoDup : forall l, NoDup (labels_dedup l).
Proof.
  induction l as [|x l IH]; cbn; constructor; [|now apply NoDup_filter']. rewrite filter_In, label_eqb_refl. intros [_ X]. discriminate.
Qed.
Lemma label_leb_total a b : label_leb a b = false -> label_leb b a = true.
Proof.
  destruct a as [t [p|]], b as [u [q|]]; unfold label_leb; cbn; intros H; destruct (Z.ltb_spec t u), (Z.eqb_spec t u), (Z.ltb_spec u t), (Z.eqb_spec u t);
    cbn in *; try discriminate; try lia; try reflexivity; apply Z.leb_gt in H; apply Z.leb_le; lia.
Qed.
Lemma label_leb_lt a b : label_leb a b = true -> a <> b -> label_before a b.
Proof.
  destruct a as [t [p|]], b as [u [q|]]; unfold label_leb, label_before; cbn; intros H N;
    apply orb_true_iff in H as [H|H]; try (left; apply Z.ltb_lt; exact H);
    apply andb_true_iff in H as [H1 H2]; apply Z.eqb_eq in H1; subst u; right; split; auto; try discriminate;
    try (apply Z.leb_le in H2; assert (p <> q) by congruence; lia); congruence.
Qed.
Lemma label_before_trans a b c : label_before a b -> label_before b c -> label_before a c.
Proof.
  destruct a as [t [p|]], b as [u [q|]], c as [v [r|]]; unfold label_before; cbn; intros [H|[H H']] [G|[G G']]; try contradiction; auto; try (left; lia); right; lia.
Qed.
Lemma label_before_irrefl a : ~ label_before a a.
Proof. destruct a as [t [p|]]; unfold label_before; cbn; lia. Qed.
Lemma sorted_before l : Sorted (fun a b => label_leb a b = true) l -> NoDup l -> StronglySorted label_before l.
Proof.
  intros H N. apply Sorted_StronglySorted; [exact label_before_trans|]. induction H as [|x l H IH R]; [constructor|].
  inversion N; subst. constructor; [auto|]. inversion R; subst; constructor. apply label_leb_lt; [assumption|]. intros ->. apply H2. now left.
Qed.
Lemma union_sorted l : StronglySorted label_before (isort label_leb (labels_dedup l)).
Proof.
  apply sorted_before.
  - apply isort_Sorted. intros a b. destruct (label_leb a b) eqn:E; [now left|right; now apply label_leb_total].
  - eapply Permutation_NoDup; [apply isort_perm|apply labels_dedup_NoDup].
Qed.
Lemma union_In a l : In a (isort label_leb (labels_dedup l)) <-> In a l.
Proof.
  rewrite <- (labels_dedup_In a l). split; apply Permutation_in; [symmetry|]; apply isort_perm.
Qed.
Lemma before_NoDup l : StronglySorted label_before l -> NoDup l.
Proof.
  induction 1 as [|x l H IH F]; constructor; [|assumption]. intros X. rewrite Forall_forall in F. exact (@label_before_irrefl x (F x X)).
Qed.

(** Values at a label. *)
Lemma at_label_map A B (f : A -> B) a (l : list (row_label * A)) : at_label a (map (fun r => (fst r, f (snd r))) l) = map f (at_label a l).
Proof.
  unfold at_label. induction l as [|[x v] l IH]; cbn; [reflexivity|]. destruct (row_label_dec x a); cbn; now rewrite IH.
Qed.
Lemma at_label_none A a (l : list (row_label * A)) : ~ In a (map fst l) -> at_label a l = [].
Proof.
  unfold at_label. induction l as [|[x v] l IH]; cbn; [reflexivity|]. intros H. destruct (row_label_dec x a); [tauto|]. apply IH. tauto.
Qed.
Lemma at_label_one A a v (l : list (row_label * A)) : NoDup (map fst l) -> In (a, v) l -> at_label a l = [v].
Proof.
  unfold at_label. induction l as [|[x w] l IH]; cbn; [intros _ []|]. intros N [E|H]; inversion N; subst.
  - injection E as -> ->. destruct (row_label_dec a a); [|congruence]. cbn. f_equal. now apply at_label_none.
  - destruct (row_label_dec x a) as [->|_]; [|auto]. exfalso. apply H2. apply in_map_iff. exists (a, v). auto.
Qed.
Lemma combine_map_fst A B (f : A -> B) (l : list A) : combine l (map f l) = map (fun x => (x, f x)) l.
Proof. induction l as [|x l IH]; cbn; [reflexivity|now rewrite IH]. Qed.
Lemma at_label_fun A (f : row_label -> A) a idx : NoDup idx -> In a idx -> at_label a (map (fun x => (x, f x)) idx) = [f a].
Proof.
  intros N H. apply at_label_one.
  - rewrite map_map. cbn. now rewrite map_id.
  - apply in_map_iff. exists a. auto.
Qed.

Section L.
Context {V : Type}.
Notation srow := (@srow V).
Lemma reindex_length idx (ser : list srow) : List.length (reindex idx ser) = List.length idx.
Proof.
  unfold reindex. destruct (labels_eqb _ _) eqn:E; rewrite map_length; [|reflexivity]. apply labels_eqb_iff in E. subst. unfold ser_index. now rewrite map_length.
Qed.
Lemma reindex_same (n : string) (ser : list srow) : shows (labels_of ser) (n, ser) (n, reindex (ser_index ser) ser).
Proof.
  split; [reflexivity|]. cbn [fst snd]. split; [apply reindex_length|]. intros a Ha. left. split; [assumption|].
  unfold reindex. rewrite (proj2 (labels_eqb_iff _ _) eq_refl). rewrite <- at_label_map. f_equal.
  unfold labels_of. clear. induction ser as [|[x v] l IH]; cbn; [reflexivity|now rewrite IH].
Qed.
Lemma reindex_union idx (n : string) (ser : list srow) : NoDup idx -> NoDup (labels_of ser) -> shows idx (n, ser) (n, reindex idx ser).
Proof.
  intros N NS. destruct (labels_eqb (ser_index ser) idx) eqn:E.
  { apply labels_eqb_iff in E. subst idx. exact (reindex_same n ser). }
  split; [reflexivity|]. cbn [fst snd]. split; [apply reindex_length|]. intros a Ha.
  unfold reindex. rewrite E. 
  match goal with |- context [combine idx (map ?g idx)] =>
    assert (Y : at_label a (combine idx (map g idx)) = [g a]) by (rewrite combine_map_fst; exact (at_label_fun g N Ha)) end.
  rewrite Y. clear Y.
  destruct (find (fun r => label_eqb (fst r) a) ser) as [[x v]|] eqn:F.
  - left. apply find_some in F as [F1 F2]. apply label_eqb_iff in F2. cbn in F2. subst x. split.
    + apply in_map_iff. exists (a, v). auto.
    + now rewrite (at_label_one NS F1).
  - right. split; [|repeat constructor]. intros H. apply in_map_iff in H as ([x v] & Ex & H). cbn in Ex. subst x.
    apply (find_none _ _ F) in H. cbn in H. now rewrite label_eqb_refl in H.
Qed.

Lemma all_In (cols : list (string * list srow)) a : In a (List.concat (map (fun c => ser_index (snd c)) cols)) <->
  exists c, In c cols /\ In a (labels_of (snd c)).
Proof.
  rewrite in_concat. split.
  - intros (x & H & Ha). apply in_map_iff in H as (c & <- & H). eauto.
  - intros (c & H & Ha). exists (ser_index (snd c)). split; [|assumption]. apply in_map_iff. eauto.
Qed.
Lemma Forall2_map_r A B (R : A -> B -> Prop) (f : A -> B) l : (forall x, In x l -> R x (f x)) -> Forall2 R l (map f l).
Proof. induction l as [|x l IH]; cbn; intros H; constructor; auto. Qed.

Lemma concat_columns_spec (cols : list (string * list srow)) idx tcols : concat_columns cols = Ok (idx, tcols) ->
  cols <> [] /\
  (forall a, In a idx <-> exists c, In c cols /\ In a (labels_of (snd c))) /\
  Forall2 (shows idx) cols tcols /\
  ((forall c, In c cols -> labels_of (snd c) = idx) \/
   (StronglySorted label_before idx /\ forall c, In c cols -> NoDup (labels_of (snd c)))).
Proof.
  destruct cols as [|c0 r]; cbn [concat_columns]; [discriminate|]. intros H. split; [discriminate|].
  destruct (forallb _ r) eqn:E in H.
  - injection H as <- <-. assert (X : forall c, In c (c0 :: r) -> labels_of (snd c) = ser_index (snd c0)).
    { intros c [<-|Hc]; [reflexivity|]. rewrite forallb_forall in E. apply E, labels_eqb_iff in Hc. symmetry. exact Hc. }
    split; [|split; [|left; exact X]].
    + intros a. split; [intros Ha; exists c0; split; [now left|exact Ha]|]. intros (c & Hc & Ha). now rewrite (X c Hc) in Ha.
    + refine (@Forall2_map_r _ _ (shows _) (fun c => (fst c, reindex (ser_index (snd c0)) (snd c))) (c0 :: r) _). intros [n ser] Hc. specialize (X _ Hc). cbn [fst snd] in *. rewrite <- X. exact (reindex_same n ser).
  - destruct (existsb with_pulse _ && _); [discriminate|]. destruct (forallb _ (c0 :: r)) eqn:U in H; [|discriminate]. injection H as <- <-.
    assert (X : forall c, In c (c0 :: r) -> NoDup (labels_of (snd c))).
    { intros c Hc. rewrite forallb_forall in U. apply U in Hc. now apply labels_unique_iff in Hc. }
    match goal with |- context [isort label_leb (labels_dedup ?L)] => set (all := L) end.
    pose proof (union_sorted all) as S. split; [|split; [|right; auto]].
    + intros a. rewrite union_In. exact (all_In (c0 :: r) a).
    + refine (@Forall2_map_r _ _ (shows _) (fun c => (fst c, reindex (isort label_leb (labels_dedup all)) (snd c))) (c0 :: r) _). intros [n ser] Hc. apply reindex_union; [now apply before_NoDup|exact (X _ Hc)].
Qed.
Lemma with_pulse_iff a : with_pulse a = true <-> snd a <> None.
Proof. unfold with_pulse. destruct (snd a); split; congruence. Qed.
Lemma same_kind_check (cols : list (string * list srow)) : same_kind cols ->
  existsb with_pulse (List.concat (map (fun c => ser_index (snd c)) cols)) && negb (forallb with_pulse (List.concat (map (fun c => ser_index (snd c)) cols))) = false.
Proof.
  intros [H|H].
  - destruct (existsb _ _) eqn:E; [|reflexivity]. apply existsb_exists in E as (a & Ha & E). apply all_In in Ha as (c & Hc & Ha). apply with_pulse_iff in E.
    now apply (H c a) in Ha.
  - apply andb_false_iff. right. apply negb_false_iff. apply forallb_forall. intros a Ha. apply all_In in Ha as (c & Hc & Ha). apply with_pulse_iff. eauto.
Qed.
Lemma concat_columns_exists (cols : list (string * list srow)) : cols <> [] ->
  ((exists l, forall c, In c cols -> labels_of (snd c) = l) \/ (same_kind cols /\ forall c, In c cols -> NoDup (labels_of (snd c)))) ->
  exists t, concat_columns cols = Ok t.
Proof.
  intros N H. destruct cols as [|c0 r]; [congruence|]. cbn [concat_columns].
  destruct (forallb (fun c' => labels_eqb (ser_index (snd c0)) (ser_index (snd c'))) r) eqn:E; [eauto|].
  destruct H as [(l & H)|[K H]].
  { exfalso. apply not_true_iff_false in E. apply E. apply forallb_forall. intros c Hc. apply labels_eqb_iff.
    change (labels_of (snd c0) = labels_of (snd c)). rewrite (H c0), (H c); [reflexivity|now right|now left]. }
  rewrite (same_kind_check K). destruct (forallb _ (c0 :: r)) eqn:U; [eauto|]. exfalso. apply not_true_iff_false in U. apply U.
  apply forallb_forall. intros c Hc. apply labels_unique_iff. now apply H.
Qed.
Lemma concat_columns_dup (cols : list (string * list srow)) c c' : same_kind cols -> In c cols -> In c' cols ->
  ~ NoDup (labels_of (snd c)) -> labels_of (snd c') <> labels_of (snd c) -> concat_columns cols = Err EValueError.
Proof.
  intros K Hc Hc' N D. destruct (concat_columns cols) as [[idx tc]|e] eqn:E.
  - exfalso. apply concat_columns_spec in E as (_ & _ & _ & [X|[_ X]]); [|now apply N, X]. apply D. now rewrite (X c Hc), (X c' Hc').
  - destruct cols as [|c0 r]; [destruct Hc|]. cbn [concat_columns] in E. destruct (forallb _ r) in E; [discriminate|]. rewrite (same_kind_check K) in E.
    destruct (forallb _ (c0 :: r)) in E; congruence.
Qed.
End L.

Section F.
Context {V : Type}.
Lemma plain_values t (ser : list (Z * option Z * V)) : Forall (eq None) (series_pulses t ser) -> at_label (t, None) ser = series_values t ser.
Proof.
  unfold at_label, series_values, series_pulses. induction ser as [|[[u p] v] l IH]; [reflexivity|]. cbn [map filter fst snd].
  destruct (Z.eqb_spec u t) as [->|N]; cbn [map filter fst snd].
  - intros H. inversion H as [|? ? X Y]; subst. destruct (row_label_dec (t, None) (t, None)); [|congruence].
    cbn [map filter fst snd]. f_equal. apply IH. assumption.
  - intros H. destruct (row_label_dec (u, p) (t, None)); [congruence|]. auto.
Qed.
Lemma pulse_values t q (ser : list (Z * option Z * V)) :
  at_label (t, q) ser = map snd (filter (fun pv => opt_eqb (fst pv) q) (combine (series_pulses t ser) (series_values t ser))).
Proof.
  unfold at_label, series_values, series_pulses. induction ser as [|[[u p] v] l IH]; [reflexivity|]. cbn [map filter fst snd combine].
  destruct (Z.eqb_spec u t) as [->|N]; cbn [map filter fst snd combine].
  - assert (X : opt_eqb p q = true <-> p = q) by (destruct p, q; simpl; rewrite ?Z.eqb_eq; split; congruence).
    destruct (row_label_dec (t, p) (t, q)) as [E|E].
    + assert (p = q) by congruence. rewrite (proj2 X) by assumption. cbn [map filter fst snd combine]. now rewrite IH.
    + destruct (opt_eqb p q); [exfalso; apply E; now rewrite (proj1 X)|]. assumption.
  - destruct (row_label_dec (u, p) (t, q)); [congruence|]. assumption.
Qed.
Lemma no_values t q (ser : list (Z * option Z * V)) : series_values t ser = [] -> at_label (t, q) ser = [] /\ ~ In (t, q) (labels_of ser).
Proof.
  unfold at_label, series_values, labels_of. induction ser as [|[[u p] v] l IH]; [cbn; auto|]. cbn [map filter fst snd combine].
  destruct (Z.eqb_spec u t) as [->|N]; cbn [map filter fst snd combine]; [discriminate|]. intros H. destruct (IH H) as [A B].
  destruct (row_label_dec (u, p) (t, q)) as [E|E]; [congruence|]. split; [assumption|]. cbn [In]; intros [X|X]; [congruence|contradiction].
Qed.
Lemma at_label_In A a (l : list (row_label * A)) : In a (map fst l) -> at_label a l <> [].
Proof.
  unfold at_label. induction l as [|[x v] l IH]; cbn; [intros []|]. intros [->|H]; destruct (row_label_dec _ a); cbn; try discriminate; [congruence|auto].
Qed.
Lemma combine_fst A B (l : list A) : forall l' : list B, List.length l' = List.length l -> map fst (combine l l') = l.
Proof. induction l as [|x l IH]; intros [|y l'] E; cbn in *; try discriminate; [reflexivity|]. f_equal. apply IH. now injection E. Qed.
(** What a column shows at a label, whether it is a row or not. *)
Lemma shows_at idx (c : string * list (row_label * V)) tc a : shows idx c tc ->
  (forall b, In b (labels_of (snd c)) -> In b idx) ->
  (at_label a (snd c) <> [] /\ at_label a (combine idx (snd tc)) = map Some (at_label a (snd c))) \/
  (at_label a (snd c) = [] /\ Forall (eq None) (at_label a (combine idx (snd tc)))).
Proof.
  intros (_ & L & H) Hsub. destruct (in_dec row_label_dec a idx) as [Hi|Hi].
  - destruct (H a Hi) as [[A B]|[A B]]; [left|right]; split; try assumption; [now apply at_label_In|now apply at_label_none].
  - right. split; [apply at_label_none; intros X; apply Hi, Hsub, X|]. rewrite at_label_none; [constructor|].
    rewrite (combine_fst L). assumption.
Qed.
End F.
