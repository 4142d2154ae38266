(** Invariants of collections obtained through the public API. *)
From Verif Require Import Base PyStr M_Files M_Machinery M_Reader M_Glob M_Select S_Reader S_Coll
  L_Base L_Machinery L_Reader L_GetArray.
Set Implicit Arguments.
Local Open Scope string_scope.
Local Open Scope list_scope.

Section S.
Context {V : Type}.
Notation faccess := (faccess V).
Notation dcoll := (dcoll V).

Lemma mk_collection_inv : forall files sel tids (d : dcoll),
  mk_collection files sel tids = Ok d ->
  dc_files d = files /\ check_source_conflicts files = Ok tt /\
  dc_sel d = (match sel with Some s => s | None => default_selection files end) /\
  dc_tids d = (match tids with Some t => t | None => zsort_set (flat_map (@fa_tids V) files) end) /\
  (forall s, In s (dc_ctrl d) <-> exists f, In f files /\ In s (fa_ctrl f) /\ In s (dict_keys (dc_sel d))) /\
  (forall s, In s (dc_inst d) <-> exists f, In f files /\ In s (fa_inst f) /\ In s (dict_keys (dc_sel d))).
Proof.
  intros files sel tids d H. unfold mk_collection in H.
  apply bind_ok in H as ([] & Hc & H). injection H as <-. simpl.
  do 4 (split; [auto|]). split; intros s; rewrite fold_set_union_In; simpl; split.
  - intros [[]|(f & Hf & Hs)]. apply set_inter_In in Hs. eauto.
  - intros (f & Hf & Hs). right. exists f. rewrite set_inter_In. auto.
  - intros [[]|(f & Hf & Hs)]. apply set_inter_In in Hs. eauto.
  - intros (f & Hf & Hs). right. exists f. rewrite set_inter_In. auto.
Qed.

(** What the constructor establishes. *)
Definition built (d : dcoll) : Prop :=
  check_source_conflicts (dc_files d) = Ok tt /\
  (forall s, In s (dc_ctrl d) <-> exists f, In f (dc_files d) /\ In s (fa_ctrl f) /\ In s (dict_keys (dc_sel d))) /\
  (forall s, In s (dc_inst d) <-> exists f, In f (dc_files d) /\ In s (fa_inst f) /\ In s (dict_keys (dc_sel d))).

Lemma mk_collection_built : forall files sel tids (d : dcoll),
  mk_collection files sel tids = Ok d -> built d.
Proof.
  intros files sel tids d H. apply mk_collection_inv in H as (<- & H1 & _ & _ & H2 & H3).
  repeat split; try assumption; apply H2 || apply H3.
Qed.

Lemma ForallOrdPairs_filter : forall A (R : A -> A -> Prop) p (l : list A),
  ForallOrdPairs R l -> ForallOrdPairs R (filter p l).
Proof.
  intros A R p l H. induction H as [|x l Hx H IH]; simpl; [constructor|].
  destruct (p x); [constructor|]; [|assumption|assumption].
  rewrite Forall_forall in *. intros y Hy. apply filter_In in Hy as [Hy _]. auto.
Qed.

Lemma filter_comm : forall A (p q : A -> bool) l, filter p (filter q l) = filter q (filter p l).
Proof.
  intros A p q; induction l as [|x l IH]; simpl; [reflexivity|].
  destruct (q x) eqn:Q, (p x) eqn:P; simpl; rewrite ?P, ?Q, ?IH; reflexivity.
Qed.

(** Conflict freedom is inherited by any subset of the files. *)
Lemma conflicts_filter : forall p (files : list faccess),
  check_source_conflicts files = Ok tt -> check_source_conflicts (filter p files) = Ok tt.
Proof.
  intros p files H. unfold check_source_conflicts.
  destruct (existsb _ _) eqn:E; [|reflexivity]. exfalso.
  apply existsb_exists in E as (s & _ & E).
  pose proof (check_conflicts_ok files s H) as C. apply tids_conflict_spec in C as [_ C].
  assert (X : tids_conflict [] (source_files (filter p files) s) = false); [|congruence].
  apply tids_conflict_spec. split; [intros; auto|].
  unfold source_files in *. rewrite filter_comm. now apply ForallOrdPairs_filter.
Qed.

Lemma mk_collection_total : forall files sel tids,
  check_source_conflicts files = Ok tt -> exists d : dcoll, mk_collection files sel tids = Ok d.
Proof. intros files sel tids H. unfold mk_collection. rewrite H. simpl. eauto. Qed.

Lemma dedup_files_incl : forall l seen (f : faccess), In f (dedup_files seen l) -> In f l.
Proof.
  induction l as [|g l IH]; intros seen f H; simpl in *; [assumption|].
  destruct (str_in _ _); [right; eauto|]. destruct H as [->|H]; [now left|right; eauto].
Qed.

Lemma reachable_inv : forall d : dcoll, reachable d ->
  built d /\ Forall opened (dc_files d).
Proof.
  intros d H. induction H as [files d Hf H|d a d' H IH Hs|d a d' H IH Hs|d tr d' H IH Hs|d ds d' H IH Hds IHds Hu].
  - split; [eapply mk_collection_built; eassumption|].
    apply mk_collection_inv in H as (-> & _). exact Hf.
  - unfold select in Hs. apply bind_ok in Hs as (sel & _ & Hs).
    split; [eapply mk_collection_built; eassumption|].
    apply mk_collection_inv in Hs as (-> & _). destruct IH as [_ IH]. rewrite Forall_forall in *.
    intros f Hf. apply filter_In in Hf as [Hf _]. auto.
  - unfold deselect in Hs. apply bind_ok in Hs as (sel & _ & Hs). apply bind_ok in Hs as (l & _ & Hs).
    split; [eapply mk_collection_built; eassumption|].
    apply mk_collection_inv in Hs as (-> & _). destruct IH as [_ IH]. rewrite Forall_forall in *.
    intros f Hf. apply filter_In in Hf as [Hf _]. auto.
  - unfold select_trains in Hs. apply bind_ok in Hs as (tids & _ & Hs).
    split; [eapply mk_collection_built; eassumption|].
    apply mk_collection_inv in Hs as (-> & _). destruct IH as [_ IH]. rewrite Forall_forall in *.
    intros f Hf. apply filter_In in Hf as [Hf _]. auto.
  - destruct Hu as (files & HP & Hu). unfold union_in_order in Hu. symmetry in Hu.
    split; [eapply mk_collection_built; eassumption|].
    apply mk_collection_inv in Hu as (-> & _). apply Forall_forall. intros f Hf.
    apply Permutation_sym in HP. apply (Permutation_in _ HP) in Hf. apply dedup_files_incl in Hf.
    apply in_flat_map in Hf as (x & [<-|Hx] & Hf).
    + destruct IH as [_ IH]. rewrite Forall_forall in IH. auto.
    + destruct (IHds x Hx) as [_ IHx]. rewrite Forall_forall in IHx. auto.
Qed.

Lemma fa_sources_In : forall (f : faccess) s, In s (fa_sources f) <-> In s (fa_ctrl f) \/ In s (fa_inst f).
Proof. intros; unfold fa_sources. apply set_union_In. Qed.

(** ** get_array *)
Lemma kind_split : forall d s, built d -> distinct_kinds d -> In s (dc_sources d) ->
  (str_in s (dc_ctrl d) = true /\ str_in s (dc_inst d) = false /\
     forall f, In f (dc_files d) -> In s (fa_sources f) -> In s (fa_ctrl f) /\ ~ In s (fa_inst f)) \/
  (str_in s (dc_ctrl d) = false /\ str_in s (dc_inst d) = true /\
     forall f, In f (dc_files d) -> In s (fa_sources f) -> In s (fa_inst f) /\ ~ In s (fa_ctrl f)).
Proof.
  intros d s (_ & Hc & Hi) Hk Hs. unfold dc_sources in Hs. apply set_union_In in Hs as [Hs|Hs].
  - left. assert (Hs' := Hs). apply Hc in Hs' as (f & Hf & Hsf & _).
    split; [now apply str_in_iff|]. split.
    + apply str_in_false. intros Hi'. apply Hi in Hi' as (f' & Hf' & Hsf' & _). exact (Hk f f' s Hf Hf' Hsf Hsf').
    + intros f' Hf' Hs'. apply fa_sources_In in Hs' as [Hs'|Hs'].
      * split; [assumption|]. now apply (Hk f' f' s).
      * exfalso. exact (Hk f f' s Hf Hf' Hsf Hs').
  - right. assert (Hs' := Hs). apply Hi in Hs' as (f & Hf & Hsf & _).
    split.
    + apply str_in_false. intros Hi'. apply Hc in Hi' as (f' & Hf' & Hsf' & _). exact (Hk f' f s Hf' Hf Hsf' Hsf).
    + split; [now apply str_in_iff|]. intros f' Hf' Hs'. apply fa_sources_In in Hs' as [Hs'|Hs'].
      * exfalso. exact (Hk f' f s Hf' Hf Hs' Hsf).
      * split; [assumption|]. intros Hcf. exact (Hk f' f' s Hf' Hf' Hcf Hs').
Qed.

Lemma get_array_source : forall (d : dcoll) s k a, get_array d s k = Ok a -> In s (dc_sources d).
Proof.
  intros d s k a H. unfold get_array in H. apply bind_ok in H as (? & H & _).
  unfold check_field in H. destruct (str_in s (dc_sources d)) eqn:E; [now apply str_in_iff|discriminate].
Qed.

Lemma file_nodup : forall (d : dcoll) f, Forall opened (dc_files d) -> good_files d -> In f (dc_files d) ->
  NoDup (fa_tids f).
Proof.
  intros d f Ho Hg Hf. unfold good_files in Hg. rewrite Forall_forall in *.
  destruct (opened_tids (Ho f Hf) (Hg f Hf)) as (pad & _ & HN & _). exact HN.
Qed.

Lemma source_files_nodup : forall (d : dcoll) s, built d -> Forall opened (dc_files d) -> good_files d ->
  NoDup (flat_map (@fa_tids V) (source_files (dc_files d) s)).
Proof.
  intros d s (Hc & _) Ho Hg. apply no_conflict_NoDup; [now apply check_conflicts_ok|].
  apply Forall_forall. intros f Hf. apply source_files_In in Hf as [Hf _]. eapply file_nodup; eassumption.
Qed.

(** Index entries and dataset of a field, per file. *)
Lemma good_index_entries : forall (d : dcoll) s k,
  built d -> distinct_kinds d -> In s (dc_sources d) -> good_index d s k ->
  exists Ef, files_ix (source_files (dc_files d) s) s (if str_in s (dc_inst d) then key_group k else "") Ef /\
   forall f, In f (source_files (dc_files d) s) ->
     map fst (Ef f) = fa_tids f /\
     exists g, dict_get (index_key (str_in s (dc_ctrl d)) s k) (h5_index (fa_file f)) = Some g /\
     forall p t a c, nth_error (Ef f) p = Some (t, (a, c)) <->
      nth_error (fa_tids f) p = Some t /\ nth_error (ix_first g) p = Some a /\ entry_count g p = Some c.
Proof.
  intros d s k Hb Hk Hs Hg.
  assert (Hpath : ix_path s (if str_in s (dc_inst d) then key_group k else "") =
                  index_key (str_in s (dc_ctrl d)) s k).
  { destruct (@kind_split d s Hb Hk Hs) as [(-> & -> & _)|(-> & -> & _)].
    - reflexivity.
    - apply ix_path_inst. }
  (* choose the entries read by the model *)
  exists (fun f => match fa_get_index f s (if str_in s (dc_inst d) then key_group k else "") with
                   | Ok (fi, co) => entries (fa_tids f) fi co | Err _ => [] end).
  assert (K : forall f, In f (source_files (dc_files d) s) -> exists g E,
     dict_get (index_key (str_in s (dc_ctrl d)) s k) (h5_index (fa_file f)) = Some g /\
     file_ix f s (if str_in s (dc_inst d) then key_group k else "") E /\
     (forall p t a c, nth_error E p = Some (t, (a, c)) <->
      nth_error (fa_tids f) p = Some t /\ nth_error (ix_first g) p = Some a /\ entry_count g p = Some c) /\
     E = match fa_get_index f s (if str_in s (dc_inst d) then key_group k else "") with
                   | Ok (fi, co) => entries (fa_tids f) fi co | Err _ => [] end).
  { intros f Hf. apply source_files_In in Hf as [Hf Hsf].
    destruct (Hg f Hf Hsf) as (g & Hgg & Hok & _). rewrite <- Hpath in Hgg.
    destruct (index_file_ix f s _ Hgg Hok) as (E & HE & HE2).
    exists g, E. rewrite <- Hpath. split; [assumption|]. split; [assumption|]. split; [assumption|].
    destruct HE as (fi & co & -> & _ & _ & -> & _). reflexivity. }
  split.
  - intros f Hf. destruct (K f Hf) as (g & E & _ & HE & _ & <-). exact HE.
  - intros f Hf. destruct (K f Hf) as (g & E & Hgg & HE & HE2 & <-). split.
    + destruct HE as (fi & co & _ & L1 & L2 & -> & _). now apply entries_fst.
    + exists g. split; assumption.
Qed.

Lemma file_ds_path : forall (d : dcoll) s k f ds,
  built d -> distinct_kinds d -> In s (dc_sources d) -> In f (dc_files d) -> In s (fa_sources f) ->
  file_ds s k f = Ok ds -> dict_get (data_key (str_in s (dc_ctrl d)) s k) (h5_data (fa_file f)) = Some ds.
Proof.
  intros d s k f ds Hb Hk Hs Hf Hsf H. unfold file_ds, ch_dataset in H. simpl in H.
  destruct (@kind_split d s Hb Hk Hs) as [(-> & _ & Hall)|(-> & _ & Hall)]; destruct (Hall f Hf Hsf) as [H1 H2];
    apply str_in_iff in H1; apply str_in_false in H2; rewrite H1, ?H2 in H; unfold fa_dataset in H.
  - rewrite ds_path_ctrl in H. destruct (dict_get _ _); congruence.
  - rewrite ds_path_inst in H. destruct (dict_get _ _); congruence.
Qed.

(** The datasets hold the rows of the entries. *)
Lemma good_index_hold : forall (d : dcoll) s k Ef,
  built d -> distinct_kinds d -> In s (dc_sources d) -> good_index d s k ->
  (forall f, In f (source_files (dc_files d) s) ->
     exists g, dict_get (index_key (str_in s (dc_ctrl d)) s k) (h5_index (fa_file f)) = Some g /\
     forall p t a c, nth_error (Ef f) p = Some (t, (a, c)) <->
      nth_error (fa_tids f) p = Some t /\ nth_error (ix_first g) p = Some a /\ entry_count g p = Some c) ->
  files_hold (source_files (dc_files d) s) s k Ef.
Proof.
  intros d s k Ef Hb Hk Hs Hg HE f ds Hf Hd. destruct (HE f Hf) as (g & Hgg & Hiff).
  apply source_files_In in Hf as [Hf Hsf]. destruct (Hg f Hf Hsf) as (g' & Hgg' & _ & Hold).
  rewrite Hgg in Hgg'. injection Hgg' as <-. pose proof (@file_ds_path d s k f ds Hb Hk Hs Hf Hsf Hd) as Hp.
  apply Forall_forall. intros [t [a c]] He. apply In_nth_error in He as [p He]. apply Hiff in He as (E1 & E2 & E3).
  unfold in_bounds, e_first, e_count. cbn [fst snd]. eapply (Hold ds Hp); eauto. eapply nth_error_Some_lt; eassumption.
Qed.

Lemma NoDup_nth_first : forall (l : list Z) p t, NoDup l -> nth_error l p = Some t ->
  forall q, (q < p)%nat -> nth_error l q <> Some t.
Proof.
  intros l p t H Hp q Hq E. rewrite NoDup_nth_error in H.
  assert (q = p); [|lia]. apply H; [eapply nth_error_Some_lt; eassumption|congruence].
Qed.

(** The raw trainId dataset has the train at the same position. *)
Lemma raw_position : forall (f : faccess) p t, opened f -> tids_ok (fa_file f) -> nth_error (fa_tids f) p = Some t ->
  exists raw, h5_trainid (fa_file f) = Some raw /\ nth_error raw p = Some t /\
    (forall q, q < p -> nth_error raw q <> Some t)%nat.
Proof.
  intros f p t Ho Hg Hp. destruct (opened_tids Ho Hg) as (pad & Hr & HN & _).
  pose proof (nth_error_Some_lt _ _ Hp) as Hl.
  eexists; split; [exact Hr|]. split; [rewrite nth_error_app1; assumption|].
  intros q Hq. rewrite nth_error_app1 by lia. eapply NoDup_nth_first; eassumption.
Qed.

Theorem get_array_correct : forall (d : dcoll) s k a,
  reachable d -> distinct_kinds d -> good_files d -> good_index d s k ->
  get_array d s k = Ok a ->
  (forall f t, In f (dc_files d) -> In s (fa_sources f) -> In t (fa_tids f) -> In t (dc_tids d) ->
     file_rows (fa_file f) (str_in s (dc_ctrl d)) s k t (rows_labelled t (la_labels a) (la_rows a))) /\
  (forall t, ~ (In t (dc_tids d) /\ exists f, In f (dc_files d) /\ In s (fa_sources f) /\ In t (fa_tids f)) ->
     rows_labelled t (la_labels a) (la_rows a) = []).
Proof.
  intros d s k a Hr Hk Hgf Hgi Ha. destruct (reachable_inv Hr) as [Hb Ho].
  pose proof (get_array_source _ _ _ Ha) as Hs.
  destruct (@good_index_entries d s k Hb Hk Hs Hgi) as (Ef & HE & HE2).
  pose proof (@source_files_nodup d s Hb Ho Hgf) as HN.
  assert (HB : files_hold (source_files (dc_files d) s) s k Ef)
    by (eapply good_index_hold; eauto; intros f Hf; exact (proj2 (HE2 f Hf))).
  pose proof (@get_array_entries V d s k a Ef Ha HE HB HN) as HG.
  set (fs := source_files (dc_files d) s) in *.
  assert (Hfst : forall f, In f fs -> map fst (Ef f) = fa_tids f) by (intros f Hf; apply HE2; assumption).
  split.
  - intros f t Hf Hsf Ht Hsel.
    assert (Hfs : In f fs) by (apply source_files_In; auto).
    destruct (@files_one V fs f t fs s k Ef (dc_tids d) HN eq_refl Hfst Hfs Ht Hsel) as (x & c & Hin & HR).
    unfold rows_labelled. rewrite HG, HR, snd_entry_rows. unfold e_first, e_count; simpl.
    apply In_nth_error in Hin as [p Hp].
    destruct (HE2 f Hfs) as (_ & g & Hgg & Hiff). apply Hiff in Hp as (Hp1 & Hp2 & Hp3).
    assert (Hof : opened f) by (rewrite Forall_forall in Ho; auto).
    assert (Hgo : tids_ok (fa_file f)) by (unfold good_files in Hgf; rewrite Forall_forall in Hgf; auto).
    destruct (@raw_position f p t Hof Hgo Hp1) as (raw & R1 & R2 & R3).
    assert (Hds : exists ds, file_ds s k f = Ok ds).
    { (* a file with a selected train contributes a chunk, whose dataset was opened *)
      unfold get_array in Ha. apply bind_ok in Ha as (? & _ & Ha). apply bind_ok in Ha as (chs & Hchs & Ha).
      apply bind_ok in Ha as (dss & Hdss & _).
      unfold sorted_chunks in Hchs. apply bind_ok in Hchs as (c0 & Hc0 & Hchs). injection Hchs as <-.
      unfold find_data_chunks in Hc0. apply bind_ok in Hc0 as (lch & Hlch & Hc0). injection Hc0 as <-.
      apply mapM_ok_iff in Hlch. apply mapM_ok_iff in Hdss. fold fs in Hlch.
      assert (X : exists ch, In ch (List.concat lch) /\ ch_file ch = f).
      { clear -Hlch Hfs HE. revert HE. induction Hlch as [|f' chs fs' lch' Hh H IH]; intros HE; [destruct Hfs|].
        destruct Hfs as [->|Hfs].
        - destruct (@file_chunks_spec _ (dc_tids d) f s _ (Ef f) chs (HE f (or_introl eq_refl)) Hh)
            as (Es & HF2 & _).
          assert (chs <> []).
          { unfold file_chunks in Hh. apply bind_ok in Hh as ([fi co] & _ & Hh).
            apply bind_ok in Hh as (rs & _ & Hh). destruct rs as [|r rs]; [injection Hh as <-; discriminate|].
            apply mapM_length in Hh. intros ->. discriminate. }
          destruct chs as [|ch chs]; [congruence|]. exists ch. split; [simpl; now left|].
          inversion HF2 as [|? ? ? ? H5 H6]; subst. apply H5.
        - destruct (IH Hfs) as (ch & H1 & H2); [intros x Hx; apply HE; now right|].
          exists ch; split; [simpl; apply in_or_app; now right|assumption]. }
      destruct X as (ch & Hch & Hcf).
      apply (Permutation_in _ (sort_key_perm (@chunk_key V) _)) in Hch.
      clear -Hdss Hch Hcf. induction Hdss as [|x y xs ys Hh H IH]; [destruct Hch|].
      destruct Hch as [->|Hch]; [|auto]. exists y. rewrite ch_dataset_file, Hcf in Hh. exact Hh. }
    destruct Hds as [ds Hds].
    exists raw, p, g, x, c, ds.
    do 6 (split; [assumption|]). split.
    + eapply file_ds_path; eassumption.
    + unfold frows. rewrite Hds. unfold zslice. f_equal. f_equal. lia.
  - intros t Hno. unfold rows_labelled. rewrite HG.
    rewrite files_none; [reflexivity|assumption|].
    intros f Hf Ht Hsel. apply source_files_In in Hf as [Hf Hsf]. apply Hno. eauto.
Qed.

End S.
