(** What a union offers. *)
From Verif Require Import Base PyStr M_Files M_Machinery M_Reader M_Glob M_Select S_Reader S_Coll S_Glob S_Select S_Avail S_Hist
  L_Base L_Machinery L_Reader L_GetArray L_Select L_Trains L_SelTrains L_Array2 L_Glob L_Sel2 L_Sel3 L_Hist.
Set Implicit Arguments.
Unset Strict Implicit.
Local Open Scope string_scope.
Local Open Scope list_scope.

Lemma dict_get_unique : forall B (l : list (string * B)) s v, NoDup (dict_keys l) -> (In (s, v) l <-> dict_get s l = Some v).
Proof.
  intros B l s v HN. split; [|apply dict_get_In]. intros H.
  destruct (dict_get s l) as [w|] eqn:E.
  - apply dict_get_In in E. f_equal. exact (dict_unique HN E H).
  - exfalso. apply dict_get_none in E. apply E. unfold dict_keys. apply in_map_iff. now exists (s, v).
Qed.

Section U.
Context {V : Type}.
Notation faccess := (faccess V).
Notation dcoll := (dcoll V).

Lemma union_sel : forall (ds : list dcoll) d' s, (forall d, In d ds -> reachable d) -> is_union ds (Ok d') ->
  (dict_get s (dc_sel d') = Some None <-> exists d, In d ds /\ dict_get s (dc_sel d) = Some None) /\
  (forall u, dict_get s (dc_sel d') = Some (Some u) ->
     (forall d, In d ds -> dict_get s (dc_sel d) <> Some None) /\
     (forall k, In k u <-> exists d ks, In d ds /\ dict_get s (dc_sel d) = Some (Some ks) /\ In k ks)).
Proof.
  intros ds d' s HR (files & P & E). unfold union_in_order in E. symmetry in E. apply mk_collection_inv in E as (_ & _ & -> & _).
  assert (Hd : forall d v, In d ds -> (In (s, v) (dc_sel d) <-> dict_get s (dc_sel d) = Some v)).
  { intros d v H. apply dict_get_unique. apply sel_nodup. auto. }
  split.
  - rewrite union_selections_none. split.
    + intros (sel & Hs & H). apply in_map_iff in Hs as (d & <- & Hin). exists d. split; [assumption|]. now apply Hd.
    + intros (d & Hin & H). exists (dc_sel d). split; [apply in_map_iff; eauto|]. now apply Hd.
  - intros u H. apply union_selections_some in H as [H1 H2]. split.
    + intros d Hin E. apply (H1 (dc_sel d)); [apply in_map_iff; eauto|]. now apply Hd.
    + intros k. rewrite H2. split.
      * intros (sel & ks & Hs & H & Hk). apply in_map_iff in Hs as (d & <- & Hin). exists d, ks. split; [assumption|]. split; [now apply Hd|assumption].
      * intros (d & ks & Hin & H & Hk). exists (dc_sel d), ks. split; [apply in_map_iff; eauto|]. split; [now apply Hd|assumption].
Qed.

Lemma union_uniform : forall (ds : list dcoll) d', (forall d, In d ds -> reachable d) -> consistent_names (all_files ds) ->
  is_union ds (Ok d') -> uniform_keys (all_files ds) ->
  uniform_keys (dc_files d') /\ forall d, In d ds -> uniform_keys (dc_files d).
Proof.
  intros ds d' HR C HU U. destruct (union_spec HR C HU) as (_ & _ & _ & Hf & _). split.
  - eapply uniform_incl; [|exact U]. intros f H. apply all_files_In. now apply Hf.
  - intros d Hd. eapply uniform_incl; [|exact U]. intros f H. apply all_files_In. eauto.
Qed.

Theorem union_sources_settled : forall (ds : list dcoll) d', (forall d, In d ds -> reachable d) -> consistent_names (all_files ds) ->
  is_union ds (Ok d') -> (forall d, In d ds -> settled d) ->
  forall s, In s (dc_sources d') <-> exists d, In d ds /\ In s (dc_sources d).
Proof.
  intros ds d' HR C HU HS s. destruct (union_spec HR C HU) as (_ & _ & _ & _ & Hs). rewrite Hs. split.
  - intros ((d & Hd & H) & _). exists d. split; [assumption|]. apply HS; assumption.
  - intros (d & Hd & H). destruct (reachable_inv (HR d Hd)) as [Hb _]. apply (dc_sources_In s Hb) in H as (H & f & Hf & Hsf).
    split; [eauto|]. exists d, f. auto.
Qed.

Theorem union_available : forall (ds : list dcoll) d', (forall d, In d ds -> reachable d) -> consistent_names (all_files ds) ->
  is_union ds (Ok d') -> (forall d, In d ds -> settled d /\ real_keys d) -> uniform_keys (all_files ds) ->
  forall s k, available d' s k <-> exists d, In d ds /\ available d s k.
Proof.
  intros ds d' HR C HU HS U s k. destruct (union_spec HR C HU) as (Hb' & _ & _ & Hf & _).
  pose proof (union_sources_settled HR C HU (fun d H => proj1 (HS d H)) s) as Hsrc.
  destruct (union_uniform HR C HU U) as [U' Ud]. destruct (union_sel s HR HU) as [L1 L2].
  rewrite (available_iff s k Hb'). split.
  - intros (Hs & X). destruct (dict_get s (dc_sel d')) as [[u|]|] eqn:E.
    + destruct (L2 u eq_refl) as [_ L3]. apply L3 in X as (d & ks & Hd & Hg & Hk). exists d. split; [assumption|].
      destruct (reachable_inv (HR d Hd)) as [Hb _]. apply (available_iff s k Hb). split.
      * apply (proj1 (HS d Hd)). apply dict_get_keys. eauto.
      * now rewrite Hg.
    + destruct (proj1 L1 eq_refl) as (d & Hd & Hg). exists d. split; [assumption|].
      destruct (reachable_inv (HR d Hd)) as [Hb _].
      assert (Hsd : In s (dc_sources d)) by (apply (proj1 (HS d Hd)); apply dict_get_keys; eauto).
      apply (available_iff s k Hb). split; [assumption|]. rewrite Hg.
      apply (stored_uniform s k U') in X as (f & ks & F1 & F2 & F3 & F4).
      apply (dc_sources_In s Hb) in Hsd as (_ & g & G1 & G2). destruct (fa_get_keys_ok G2) as [ks' G3].
      apply (stored_uniform s k (Ud d Hd)). exists g, ks'. split; [assumption|]. split; [assumption|]. split; [assumption|].
      assert (F1' : In f (all_files ds)) by (apply all_files_In; now apply Hf).
      assert (G1' : In g (all_files ds)) by (apply all_files_In; eauto).
      exact (proj1 (U f g s ks ks' F1' G1' F2 G2 F3 G3 k) F4).
    + exfalso. apply (dc_sources_In s Hb') in Hs as [Hs _]. apply dict_get_keys in Hs as [o Ho]. congruence.
  - intros (d & Hd & A). assert (Hs : In s (dc_sources d')) by (apply Hsrc; exists d; split; [assumption|apply A]). split; [assumption|].
    destruct (reachable_inv (HR d Hd)) as [Hb _].
    assert (Hst : stored_key d' s k).
    { apply (stored_uniform s k U'). apply (proj2 (HS d Hd)) in A. apply (stored_uniform s k (Ud d Hd)) in A as (f & ks & F1 & F2).
      exists f, ks. split; [apply Hf; eauto|assumption]. }
    destruct (dict_get s (dc_sel d')) as [[u|]|] eqn:E; try assumption.
    destruct (L2 u eq_refl) as [L3 L4]. apply L4. apply (available_iff s k Hb) in A as [A1 A2].
    apply (dc_sources_In s Hb) in A1 as [A1 _]. apply dict_get_keys in A1 as [o Ho]. rewrite Ho in A2.
    destruct o as [ks|]; [exists d, ks; auto|]. exfalso. exact (L3 d Hd Ho).
Qed.

Theorem union_data : forall (ds : list dcoll) d' d t s k, (forall d, In d ds -> reachable d) -> consistent_names (all_files ds) ->
  is_union ds (Ok d') -> reachable d' -> good_collection d' -> In d ds -> good_collection d ->
  In t (dc_tids d) -> available d s k -> available d' s k -> (exists f, holds d f s t) ->
  exists r r', train_from_id d t = Ok (t, r) /\ train_from_id d' t = Ok (t, r') /\ item r' s k = item r s k.
Proof.
  intros ds d' d t s k HR C HU R' G' Hd G Ht A A' (f & Hf). assert (R := HR d Hd).
  destruct (union_spec HR C HU) as (_ & _ & Htids & Hfiles & _).
  destruct (train_from_id_correct R G Ht) as (r & E & _).
  destruct (train_from_id_correct R' G' (proj2 (Htids t) (ex_intro _ d (conj Hd Ht)))) as (r' & E' & _).
  exists r, r'. split; [assumption|]. split; [assumption|]. apply (item_transfer R R' G G' E E' A A').
  assert (Hf' : holds d' f s t).
  { destruct Hf as (H1 & H2 & H3). split; [|auto]. apply Hfiles. eauto. }
  destruct (reachable_inv R') as [Hb' Ho']. intros g. split; intros Hg.
  - assert (g = f) as ->; [|assumption]. destruct G' as (_ & GF & _). eapply holds_unique; eassumption.
  - destruct Hg as (H1 & H2 & H3). split; [|auto]. apply Hfiles. eauto.
Qed.

Theorem union_order : forall (ds1 ds2 : list dcoll) r1 r2, Permutation ds1 ds2 ->
  (forall d, In d ds1 -> reachable d) -> consistent_names (all_files ds1) -> uniform_keys (all_files ds1) ->
  is_union ds1 r1 -> is_union ds2 r2 ->
  (r1 = Err EValueError /\ r2 = Err EValueError) \/ (exists d1 d2, r1 = Ok d1 /\ r2 = Ok d2 /\ same_content d1 d2).
Proof.
  intros ds1 ds2 r1 r2 P HR C U H1 H2.
  assert (HR2 : forall d, In d ds2 -> reachable d) by (intros d H; apply HR; apply (Permutation_in _ (Permutation_sym P)); exact H).
  assert (Hall : forall f, In f (all_files ds1) <-> In f (all_files ds2)).
  { intros f. rewrite !all_files_In. split; intros (d & Hd & H); exists d; (split; [|assumption]).
    - apply (Permutation_in _ P); assumption.
    - apply (Permutation_in _ (Permutation_sym P)); assumption. }
  assert (C2 : consistent_names (all_files ds2)) by (intros f f' F F'; apply C; now apply Hall).
  assert (U2 : uniform_keys (all_files ds2)) by (eapply uniform_incl; [|exact U]; intros f; apply Hall).
  assert (PF : Permutation (union_files ds1) (union_files ds2)).
  { apply NoDup_Permutation; [apply (dedup_nodup (all_files ds1))|apply (dedup_nodup (all_files ds2))|].
    intros f. rewrite !union_files_In by assumption. rewrite <- !all_files_In. apply Hall. }
  destruct (union_outcome H1) as [[X1 ->]|[X1 [d1 ->]]], (union_outcome H2) as [[X2 ->]|[X2 [d2 ->]]].
  - now left.
  - exfalso. apply X2. now apply (conflicting_perm PF).
  - exfalso. apply X1. now apply (conflicting_perm (Permutation_sym PF)).
  - right. exists d1, d2. split; [reflexivity|]. split; [reflexivity|].
    destruct (union_spec HR C H1) as (B1 & S1 & T1 & F1 & So1). destruct (union_spec HR2 C2 H2) as (B2 & S2 & T2 & F2 & So2).
    assert (Hp : forall Q : dcoll -> Prop, (exists d, In d ds1 /\ Q d) <-> (exists d, In d ds2 /\ Q d)).
    { intros Q. split; intros (d & Hd & H); exists d; (split; [|assumption]).
      - apply (Permutation_in _ P); assumption.
      - apply (Permutation_in _ (Permutation_sym P)); assumption. }
    assert (Hsrc : forall s, In s (dc_sources d1) <-> In s (dc_sources d2)).
    { intros s. rewrite So1, So2. apply and_iff_both; [apply (Hp (fun d => In s (dict_keys (dc_sel d))))|].
      split; intros (d & f & Hd & H); exists d, f; (split; [|assumption]).
      - apply (Permutation_in _ P); assumption.
      - apply (Permutation_in _ (Permutation_sym P)); assumption. }
    assert (Hf : forall f, In f (dc_files d1) <-> In f (dc_files d2)).
    { intros f. rewrite F1, F2. apply (Hp (fun d => In f (dc_files d))). }
    destruct (union_uniform HR C H1 U) as [V1 _]. destruct (union_uniform HR2 C2 H2 U2) as [V2 _].
    assert (Hst : forall s k, stored_key d1 s k <-> stored_key d2 s k).
    { intros s k. rewrite (stored_uniform s k V1), (stored_uniform s k V2). split; intros (f & ks & H & H'); exists f, ks; (split; [now apply Hf|assumption]). }
    split; [|split; [exact Hsrc|split]].
    + apply sorted_lt_ext; try assumption. intros t. rewrite T1, T2. apply (Hp (fun d => In t (dc_tids d))).
    + intros s k. rewrite (available_iff s k B1), (available_iff s k B2), <- Hsrc. apply and_iff_ctx. intros Hs.
      destruct (union_sel s HR H1) as [L1 L2]. destruct (union_sel s HR2 H2) as [M1 M2].
      rewrite (Hp (fun d => dict_get s (dc_sel d) = Some None)) in L1. rewrite <- M1 in L1.
      assert (Hs2 := proj1 (Hsrc s) Hs). apply (dc_sources_In s B1) in Hs as [Hs _]. apply (dc_sources_In s B2) in Hs2 as [Hs2 _].
      apply dict_get_keys in Hs as [o1 O1]. apply dict_get_keys in Hs2 as [o2 O2]. rewrite O1, O2 in *.
      destruct o1 as [u1|], o2 as [u2|].
      * destruct (L2 u1 eq_refl) as [_ L3]. destruct (M2 u2 eq_refl) as [_ M3]. rewrite L3, M3.
        split; intros (d & ks & Hd & H); exists d, ks; (split; [|assumption]).
        -- apply (Permutation_in _ P); assumption.
        -- apply (Permutation_in _ (Permutation_sym P)); assumption.
      * exfalso. destruct L1 as [_ L1]. specialize (L1 eq_refl). discriminate.
      * exfalso. destruct L1 as [L1 _]. specialize (L1 eq_refl). discriminate.
      * apply Hst.
    + intros f s t. unfold holds. rewrite Hf. reflexivity.
Qed.

(** Collections with the same content give the same data. *)
Theorem same_content_items : forall (d1 d2 : dcoll) t r1 r2 s k, reachable d1 -> reachable d2 ->
  good_collection d1 -> good_collection d2 -> same_content d1 d2 ->
  train_from_id d1 t = Ok (t, r1) -> train_from_id d2 t = Ok (t, r2) -> available d1 s k -> item r2 s k = item r1 s k.
Proof.
  intros d1 d2 t r1 r2 s k R1 R2 G1 G2 (_ & _ & Ha & Hh) E1 E2 A.
  apply (item_transfer R1 R2 G1 G2 E1 E2 A (proj1 (Ha s k) A)). intros f. symmetry. apply Hh.
Qed.

(** Opened and then selected collections are settled. *)
Lemma default_sel_get : forall (files : list faccess) s, In s (dict_keys (default_selection files)) <->
  exists f, In f files /\ In s (fa_sources f).
Proof.
  intros files s. unfold default_selection.
  assert (G : forall l acc, In s (dict_keys (fold_left (fun acc s => dict_set s (@None (list string)) acc) l acc)) <->
                            In s (dict_keys acc) \/ In s l).
  { induction l as [|x l IH]; intros acc; simpl; [tauto|]. rewrite IH, dict_keys_set. intuition. }
  assert (H : forall fs acc, In s (dict_keys (fold_left (fun acc (f : faccess) =>
      fold_left (fun acc s => dict_set s (@None (list string)) acc) (fa_inst f)
        (fold_left (fun acc s => dict_set s (@None (list string)) acc) (fa_ctrl f) acc)) fs acc)) <->
      In s (dict_keys acc) \/ exists f, In f fs /\ In s (fa_sources f)).
  { induction fs as [|f fs IH]; intros acc; simpl.
    - split; [tauto|]. intros [H|(f & [] & _)]; exact H.
    - rewrite IH, G, G. split.
      + intros [[[H|H]|H]|(g & Hg & H)]; [now left| | |right; eauto]; right; exists f; split; auto; apply fa_sources_In; auto.
      + intros [H|(g & [<-|Hg] & H)]; [auto| |right; eauto]. apply fa_sources_In in H. tauto. }
  rewrite H. simpl. tauto.
Qed.
Lemma open_settled : forall (files : list faccess) d, mk_collection files None None = Ok d -> settled d.
Proof.
  intros files d H. pose proof (mk_collection_built _ _ _ H) as Hb. apply mk_collection_inv in H as (Hf & _ & Hs & _).
  intros s Hin. apply (dc_sources_In s Hb). split; [assumption|]. rewrite Hs in Hin. rewrite Hf. now apply default_sel_get.
Qed.
Lemma default_sel_none : forall (files : list faccess) s v, dict_get s (default_selection files) = Some v -> v = None.
Proof.
  intros files s. unfold default_selection.
  set (P := fun acc : list (string * option (list string)) => forall v, dict_get s acc = Some v -> v = None).
  assert (G : forall l acc, P acc -> P (fold_left (fun acc s => dict_set s (@None (list string)) acc) l acc)).
  { induction l as [|x l IH]; intros acc Ha; simpl; [exact Ha|]. apply IH. intros v. rewrite dict_get_set.
    destruct (String.eqb s x); [intros E; now injection E|apply Ha]. }
  assert (H : forall fs acc, P acc -> P (fold_left (fun acc (f : faccess) =>
      fold_left (fun acc s => dict_set s (@None (list string)) acc) (fa_inst f)
        (fold_left (fun acc s => dict_set s (@None (list string)) acc) (fa_ctrl f) acc)) fs acc)).
  { induction fs as [|f fs IH]; intros acc Ha; simpl; [exact Ha|]. apply IH. apply G. now apply G. }
  apply H. intros v. discriminate.
Qed.
Lemma open_available : forall (files : list faccess) d s k, mk_collection files None None = Ok d ->
  (available d s k <-> stored_key d s k).
Proof.
  intros files d s k H. pose proof (mk_collection_built _ _ _ H) as Hb. pose proof (open_settled H) as HS.
  apply mk_collection_inv in H as (Hf & _ & Hs & _). rewrite (available_iff s k Hb).
  assert (X : stored_key d s k -> In s (dc_sources d)).
  { intros (f & ks & (a & b & E & Hsf & _) & _). apply HS. rewrite Hs. apply default_sel_get. exists f. rewrite <- Hf, E.
    split; [apply in_or_app; right; now left|assumption]. }
  destruct (dict_get s (dc_sel d)) as [o|] eqn:E; [|tauto]. rewrite Hs in E. apply default_sel_none in E. subst o. tauto.
Qed.
Lemma open_real_keys : forall (files : list faccess) d, mk_collection files None None = Ok d -> real_keys d.
Proof. intros files d H s k A. now apply (open_available s k H). Qed.
Lemma select_settled : forall (d : dcoll) a d', reachable d -> select d a = Ok d' -> settled d'.
Proof.
  intros d a d' R H. unfold select in H. apply bind_ok in H as (sel & E & H).
  destruct (restrict_ok sel R) as (d1 & Hd1 & Hb' & Ht & Hsel & Hf & Hsrc & Hst). rewrite Hd1 in H. injection H as <-.
  intros s Hs. rewrite Hsel in Hs. apply Hsrc. split; [assumption|]. destruct (reachable_inv R) as [Hb _].
  apply (dc_sources_In s Hb). eapply expand_dom; eassumption.
Qed.
End U.
