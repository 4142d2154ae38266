(** Selecting and deselecting sources and keys. *)
From Verif Require Import Base PyStr M_Files M_Machinery M_Reader M_Glob M_Select S_Reader S_Coll S_Glob S_Select S_Avail
  L_Base L_Machinery L_Reader L_GetArray L_Select L_Trains L_SelTrains L_Glob.
Set Implicit Arguments.
Unset Strict Implicit.
Local Open Scope string_scope.
Local Open Scope list_scope.

(** ** Union of selections *)
Definition groups (s : string) (l : selection) : list (option (list string)) :=
  map snd (filter (fun p => String.eqb s (fst p)) l).

Lemma seln_append_get : forall multi s s' (ks : option (list string)),
  dict_get s (seln_append s' ks multi) =
  if String.eqb s s' then Some (match dict_get s multi with Some gs => gs ++ [ks] | None => [ks] end)
  else dict_get s multi.
Proof.
  induction multi as [|[x gs] multi IH]; intros s s' ks; simpl.
  - destruct (String.eqb s s'); reflexivity.
  - destruct (String.eqb_spec s' x) as [->|Hne]; simpl.
    + destruct (String.eqb s x); reflexivity.
    + rewrite IH. destruct (String.eqb_spec s x) as [->|Hsx]; [|destruct (String.eqb s s'); reflexivity].
      destruct (String.eqb_spec x s') as [->|_]; [congruence|reflexivity].
Qed.
Lemma seln_append_keys : forall multi s (ks : option (list string)) x,
  In x (dict_keys (seln_append s ks multi)) <-> x = s \/ In x (dict_keys multi).
Proof.
  induction multi as [|[y gs] multi IH]; intros s ks x; simpl; [intuition|].
  destruct (String.eqb_spec s y) as [->|Hne]; simpl; [intuition|]. unfold dict_keys in *. rewrite IH. intuition.
Qed.
Lemma seln_append_nodup : forall multi s (ks : option (list string)),
  NoDup (dict_keys multi) -> NoDup (dict_keys (seln_append s ks multi)).
Proof.
  induction multi as [|[y gs] multi IH]; intros s ks H; simpl; [constructor; [intros []|constructor]|].
  inversion H as [|? ? H1 H2]; subst. destruct (String.eqb_spec s y) as [->|Hne]; simpl; constructor; auto.
  intros X. apply seln_append_keys in X as [->|X]; [congruence|auto].
Qed.
Lemma collect_get : forall l multi s,
  dict_get s (fold_left (fun acc p => seln_append (fst p) (snd p) acc) l multi) =
  match dict_get s multi with
  | Some gs => Some (gs ++ groups s l)
  | None => match groups s l with [] => None | gs => Some gs end
  end.
Proof.
  induction l as [|[x ks] l IH]; intros multi s; simpl.
  - destruct (dict_get s multi); [now rewrite app_nil_r|reflexivity].
  - rewrite IH, seln_append_get. unfold groups. simpl. destruct (String.eqb s x); simpl.
    + destruct (dict_get s multi); [now rewrite <- app_assoc|reflexivity].
    + reflexivity.
Qed.
Lemma collect_nodup : forall l multi, NoDup (dict_keys multi) ->
  NoDup (dict_keys (fold_left (fun acc p => seln_append (fst p) (snd p) acc) l multi)).
Proof. induction l as [|p l IH]; intros multi H; simpl; [assumption|]. apply IH. now apply seln_append_nodup. Qed.

Lemma fold_concat : forall A B (f : A -> B -> A) ls a,
  fold_left (fun acc l => fold_left f l acc) ls a = fold_left f (List.concat ls) a.
Proof. induction ls as [|l ls IH]; intros a; simpl; [reflexivity|]. now rewrite IH, fold_left_app. Qed.

Lemma dict_get_map : forall A B (g : A -> B) (l : list (string * A)) s,
  dict_get s (map (fun p => (fst p, g (snd p))) l) = option_map g (dict_get s l).
Proof. induction l as [|[x a] l IH]; intros s; simpl; [reflexivity|]. destruct (String.eqb s x); [reflexivity|apply IH]. Qed.

Lemma union_selections_get : forall sels s,
  dict_get s (union_selections sels) =
  match groups s (List.concat sels) with [] => None | gs => Some (merge_keygroups gs) end.
Proof.
  intros sels s. unfold union_selections. rewrite dict_get_map, fold_concat, collect_get. simpl.
  destruct (groups s (List.concat sels)); reflexivity.
Qed.
Lemma union_selections_nodup : forall sels, NoDup (dict_keys (union_selections sels)).
Proof.
  intros sels. unfold union_selections, dict_keys. rewrite map_map. simpl. rewrite fold_concat.
  apply collect_nodup. constructor.
Qed.
Lemma groups_in : forall s l ks, In ks (groups s l) <-> In (s, ks) l.
Proof.
  intros s l ks. unfold groups. rewrite in_map_iff. split.
  - intros ([x y] & <- & H). apply filter_In in H as [H E]. apply String.eqb_eq in E. simpl in *. now subst.
  - intros H. exists (s, ks). split; [reflexivity|]. apply filter_In. split; [assumption|]. apply String.eqb_refl.
Qed.
Lemma union_selections_keys : forall sels s,
  In s (dict_keys (union_selections sels)) <-> exists sel, In sel sels /\ In s (dict_keys sel).
Proof.
  intros sels s. rewrite <- dict_get_keys, union_selections_get. split.
  - intros [v H]. destruct (groups s (List.concat sels)) as [|g gs] eqn:E; [discriminate|].
    assert (Hg : In g (groups s (List.concat sels))) by (rewrite E; now left).
    apply groups_in in Hg. apply in_concat in Hg as (sel & H1 & H2). exists sel. split; [assumption|].
    unfold dict_keys. apply in_map_iff. now exists (s, g).
  - intros (sel & H1 & H2). unfold dict_keys in H2. apply in_map_iff in H2 as ([x g] & Hx & H2). simpl in Hx. subst x.
    assert (Hg : In g (groups s (List.concat sels))) by (apply groups_in; apply in_concat; eauto).
    destruct (groups s (List.concat sels)); [destruct Hg|]. eauto.
Qed.
Lemma merge_keygroups_none : forall gs, merge_keygroups gs = None <-> In None gs.
Proof.
  induction gs as [|[ks|] gs IH]; simpl; [split; [discriminate|tauto]| |tauto].
  destruct (merge_keygroups gs) as [u|]; split.
  - discriminate.
  - intros [H|H]; [discriminate|]. apply IH in H. discriminate.
  - intros _. right. now apply IH.
  - reflexivity.
Qed.
Lemma merge_keygroups_some : forall gs u, merge_keygroups gs = Some u ->
  forall k, In k u <-> exists ks, In (Some ks) gs /\ In k ks.
Proof.
  induction gs as [|[ks|] gs IH]; intros u H k; simpl in H.
  - injection H as <-. simpl. split; [intros []|intros (? & [] & _)].
  - destruct (merge_keygroups gs) as [u'|]; [|discriminate]. injection H as <-.
    rewrite set_union_In, (IH u' eq_refl). simpl. split.
    + intros [H|(ks' & H1 & H2)]; eauto.
    + intros (ks' & [H1|H1] & H2); [injection H1 as ->; auto|eauto].
  - discriminate.
Qed.
(** [union_selections] for one source. *)
Lemma union_selections_none : forall sels s,
  dict_get s (union_selections sels) = Some None <-> exists sel, In sel sels /\ In (s, None) sel.
Proof.
  intros sels s. rewrite union_selections_get.
  assert (X : In None (groups s (List.concat sels)) <-> exists sel, In sel sels /\ In (s, None) sel).
  { rewrite groups_in, in_concat. firstorder. }
  rewrite <- X, <- merge_keygroups_none. destruct (groups s (List.concat sels)) as [|g gs].
  - simpl. split; discriminate.
  - split; [intros H; now injection H|now intros ->].
Qed.
Lemma union_selections_some : forall sels s u,
  dict_get s (union_selections sels) = Some (Some u) ->
  (forall sel, In sel sels -> ~ In (s, None) sel) /\
  (forall k, In k u <-> exists sel ks, In sel sels /\ In (s, Some ks) sel /\ In k ks).
Proof.
  intros sels s u H. split.
  - intros sel H1 H2. assert (X : dict_get s (union_selections sels) = Some None) by (apply union_selections_none; eauto). congruence.
  - intros k. rewrite union_selections_get in H. destruct (groups s (List.concat sels)) as [|g gs] eqn:E; [discriminate|].
    assert (H' : merge_keygroups (g :: gs) = Some u) by (now injection H). rewrite (merge_keygroups_some H'). rewrite <- E. split.
    + intros (ks & H1 & H2). apply groups_in in H1. apply in_concat in H1 as (sel & H3 & H4). eauto.
    + intros (sel & ks & H1 & H2 & H3). exists ks. split; [|assumption]. apply groups_in, in_concat. eauto.
Qed.

Lemma and_iff_ctx : forall A B C : Prop, (A -> (B <-> C)) -> (A /\ B <-> A /\ C).
Proof. tauto. Qed.

Section S2.
Context {V : Type}.
Notation faccess := (faccess V).
Notation dcoll := (dcoll V).

(** ** The selection of a reachable collection has each source once *)
Lemma dict_set_nodup : forall B (l : list (string * B)) k v, NoDup (dict_keys l) -> NoDup (dict_keys (dict_set k v l)).
Proof.
  intros B. induction l as [|[x y] l IH]; intros k v H; simpl; [constructor; [intros []|constructor]|].
  inversion H as [|? ? H1 H2]; subst. destruct (String.eqb_spec k x) as [->|Hne]; simpl; constructor; auto.
  intros X. apply dict_keys_set in X as [->|X]; [congruence|auto].
Qed.
Lemma fold_nodup : forall A (g : selection -> A -> selection) l acc,
  (forall acc x, NoDup (dict_keys acc) -> NoDup (dict_keys (g acc x))) ->
  NoDup (dict_keys acc) -> NoDup (dict_keys (fold_left g l acc)).
Proof. intros A g. induction l as [|x l IH]; intros acc Hg H; simpl; [assumption|]. apply IH; auto. Qed.
Lemma default_selection_nodup : forall files : list faccess, NoDup (dict_keys (default_selection files)).
Proof.
  intros files. unfold default_selection. apply fold_nodup; [|constructor].
  intros acc f H. apply fold_nodup; [intros; now apply dict_set_nodup|].
  apply fold_nodup; [intros; now apply dict_set_nodup|assumption].
Qed.
Lemma expand_selection_nodup : forall (d : dcoll) a sel, expand_selection d a = Ok sel -> NoDup (dict_keys sel).
Proof.
  intros d [l|l|] sel H; simpl in H.
  - assert (G : forall acc, NoDup (dict_keys acc) -> foldM (fun acc p =>
          if negb (str_in (fst p) (dc_sources d)) then Err ESourceNameError
          else match snd p with
               | [] => Err ETypeError
               | ks => Ok (dict_set (fst p) (Some (fold_left (fun a k => set_add k a) ks [])) acc)
               end) acc l = Ok sel -> NoDup (dict_keys sel)).
    { clear H. induction l as [|[s ks] l IH]; intros acc Ha H; [simpl in H; injection H as <-; assumption|].
      change (foldM ?f ?a (?x :: ?r)) with (bind (f a x) (fun s' => foldM f s' r)) in H.
      apply bind_ok in H as (acc' & H1 & H). eapply IH; [|exact H].
      cbn [fst snd] in H1. destruct (negb _); [discriminate|]. destruct ks; [discriminate|]. injection H1 as <-. now apply dict_set_nodup. }
    eapply G; [|exact H]. constructor.
  - apply bind_ok in H as (sels & _ & H). injection H as <-. apply union_selections_nodup.
  - injection H as <-. constructor.
Qed.
Lemma subtract_one_keys : forall (d : dcoll) desel p l, subtract_one d desel p = Ok l ->
  l = [] \/ exists ks, l = [(fst p, ks)].
Proof.
  intros d desel [s ks] l H. unfold subtract_one in H. cbn [fst snd] in *.
  destruct (dict_get s desel) as [[dk|]|].
  - apply bind_ok in H as (ks' & _ & H). injection H as <-. right. eauto.
  - injection H as <-. now left.
  - injection H as <-. right. eauto.
Qed.
Lemma subtract_all : forall (d : dcoll) desel sel l, mapM (subtract_one d desel) sel = Ok l ->
  NoDup (dict_keys sel) ->
  NoDup (dict_keys (List.concat l)) /\
  (forall s, match dict_get s sel with
             | None => dict_get s (List.concat l) = None
             | Some ks => exists r, subtract_one d desel (s, ks) = Ok r /\ dict_get s (List.concat l) = dict_get s r
             end).
Proof.
  intros d desel. induction sel as [|[s0 ks0] sel IH]; intros l H HN.
  - simpl in H. injection H as <-. simpl. split; [constructor|auto].
  - simpl in H. apply bind_ok in H as (r0 & H0 & H). apply bind_ok in H as (rs & Hrs & H). injection H as <-.
    inversion HN as [|? ? HN1 HN2]; subst. destruct (IH rs Hrs HN2) as [D G].
    assert (Hnot : dict_get s0 (List.concat rs) = None).
    { specialize (G s0). assert (dict_get s0 sel = None) as E by (apply dict_get_none; exact HN1). now rewrite E in G. }
    simpl. destruct (subtract_one_keys H0) as [->|[ks ->]]; simpl.
    + split; [assumption|]. intros s. destruct (String.eqb_spec s s0) as [->|Hne]; [|apply G].
      exists []. split; [exact H0|exact Hnot].
    + split.
      * constructor; [|assumption]. now apply dict_get_none.
      * intros s. destruct (String.eqb_spec s s0) as [->|Hne]; [|apply G].
        exists [(s0, ks)]. split; [exact H0|]. simpl. now rewrite String.eqb_refl.
Qed.
Lemma sel_nodup : forall d : dcoll, reachable d -> NoDup (dict_keys (dc_sel d)).
Proof.
  intros d H. induction H as [files d Hf H|d a d' H IH Hs|d a d' H IH Hs|d tr d' H IH Hs|d ds d' H IH Hds IHds Hu].
  - apply mk_collection_inv in H as (_ & _ & -> & _). apply default_selection_nodup.
  - unfold select in Hs. apply bind_ok in Hs as (sel & E & Hs). apply mk_collection_inv in Hs as (_ & _ & -> & _).
    eapply expand_selection_nodup; exact E.
  - unfold deselect in Hs. apply bind_ok in Hs as (sel & _ & Hs). apply bind_ok in Hs as (l & E & Hs).
    apply mk_collection_inv in Hs as (_ & _ & -> & _). exact (proj1 (subtract_all E IH)).
  - unfold select_trains in Hs. apply bind_ok in Hs as (tids & _ & Hs). apply mk_collection_inv in Hs as (_ & _ & -> & _). exact IH.
  - destruct Hu as (files & HP & Hu). unfold union_in_order in Hu. symmetry in Hu.
    apply mk_collection_inv in Hu as (_ & _ & -> & _). apply union_selections_nodup.
Qed.

(** ** Restricting a collection to a selection *)
Lemma dc_sources_In : forall (d : dcoll) s, built d ->
  (In s (dc_sources d) <-> In s (dict_keys (dc_sel d)) /\ exists f, In f (dc_files d) /\ In s (fa_sources f)).
Proof.
  intros d s (_ & Hc & Hi). unfold dc_sources. rewrite set_union_In, Hc, Hi. split.
  - intros [(f & H1 & H2 & H3)|(f & H1 & H2 & H3)]; split; try assumption; exists f; split; try assumption; apply fa_sources_In; auto.
  - intros (H3 & f & H1 & H2). apply fa_sources_In in H2 as [H2|H2]; [left|right]; eauto.
Qed.
Lemma files_with_source : forall sel (files : list faccess) s, In s (dict_keys sel) ->
  source_files (files_with sel files) s = source_files files s.
Proof.
  intros sel files s Hs. unfold source_files, files_with. induction files as [|f files IH]; simpl; [reflexivity|].
  destruct (str_in s (fa_sources f)) eqn:E.
  - assert (existsb (fun s => str_in s (dict_keys sel)) (fa_sources f) = true) as ->.
    { apply existsb_exists. exists s. split; [now apply str_in_iff|now apply str_in_iff]. }
    simpl. rewrite E. now f_equal.
  - destruct (existsb _ (fa_sources f)); simpl; [rewrite E|]; exact IH.
Qed.
Lemma first_file_iff : forall (d : dcoll) s f, first_file d s f <-> exists r, source_files (dc_files d) s = f :: r.
Proof.
  intros d s f. unfold first_file, source_files. split.
  - intros (a & b & -> & Hs & Ha). rewrite filter_app. simpl.
    assert (filter (fun f => str_in s (fa_sources f)) a = []) as ->.
    { clear -Ha. induction a as [|g a IH]; simpl; [reflexivity|].
      assert (str_in s (fa_sources g) = false) as -> by (apply str_in_false; apply Ha; now left).
      apply IH. intros x Hx. apply Ha. now right. }
    assert (str_in s (fa_sources f) = true) as -> by now apply str_in_iff. simpl. eauto.
  - generalize (dc_files d) as l. induction l as [|g l IH]; simpl; intros [r H]; [discriminate|].
    destruct (str_in s (fa_sources g)) eqn:E.
    + injection H as <- <-. exists [], l. split; [reflexivity|]. split; [now apply str_in_iff|intros ? []].
    + destruct IH as (a & b & -> & Hs & Ha); [eauto|]. exists (g :: a), b. split; [reflexivity|]. split; [assumption|].
      intros x [<-|Hx]; [now apply str_in_false|auto].
Qed.
Lemma fa_get_keys_ok : forall (f : faccess) s, In s (fa_sources f) -> exists ks, fa_get_keys f s = Ok ks.
Proof.
  intros f s H. unfold fa_get_keys. apply fa_sources_In in H.
  destruct (str_in s (fa_ctrl f)) eqn:E; [eauto|]. destruct H as [H|H]; [apply str_in_iff in H; congruence|].
  apply str_in_iff in H. rewrite H. eauto.
Qed.
Lemma stored_key_iff : forall (d : dcoll) s k, stored_key d s k <->
  exists f r ks, source_files (dc_files d) s = f :: r /\ fa_get_keys f s = Ok ks /\ In k ks.
Proof.
  intros d s k. unfold stored_key. split.
  - intros (f & ks & Hf & H). apply first_file_iff in Hf as [r Hr]. exists f, r, ks. tauto.
  - intros (f & r & ks & Hr & H). exists f, ks. split; [apply first_file_iff; eauto|assumption].
Qed.

(** What a collection offers for a source, in terms of its selection. *)
Lemma available_iff : forall (d : dcoll) s k, built d ->
  (available d s k <-> In s (dc_sources d) /\
     match dict_get s (dc_sel d) with
     | Some (Some ks) => In k ks
     | _ => stored_key d s k
     end).
Proof.
  intros d s k Hb. unfold available. apply and_iff_ctx. intros Hs.
  apply (dc_sources_In s Hb) in Hs as (Hsel & f & Hf & Hsf). apply dict_get_keys in Hsel as [o Ho].
  unfold keys_for_source. rewrite Ho. destruct o as [ks|].
  - split; [intros (ks' & E & H); injection E as <-; exact H|eauto].
  - rewrite stored_key_iff. destruct (source_files (dc_files d) s) as [|g r].
    + split; [intros (? & X & _); discriminate|intros (? & ? & ? & X & _); discriminate].
    + split; [intros (ks & E & H); eauto 7|intros (f' & r' & ks & E & H1 & H2); injection E as <- <-; eauto].
Qed.
End S2.
