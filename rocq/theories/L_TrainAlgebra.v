(** Selections of trains: splitting and joining, selecting twice, and the order of selections. *)
From Verif Require Import Base PyStr M_Files M_Machinery M_Reader M_Glob M_Select S_Reader S_Coll S_Glob S_Select S_Avail S_Hist S_TrainAlgebra
  L_Base L_Machinery L_Reader L_GetArray L_Select L_Trains L_SelTrains L_Array2 L_Glob L_Sel2 L_Sel3 L_Hist L_Union L_Args.
Set Implicit Arguments.
Unset Strict Implicit.
Local Open Scope string_scope.
Local Open Scope list_scope.

Section T.
Context {V : Type}.
Notation faccess := (faccess V).
Notation dcoll := (dcoll V).

Lemma trains_inv : forall (d : dcoll) tr d', select_trains d tr = Ok d' ->
  new_train_ids (dc_tids d) tr = Ok (dc_tids d') /\ dc_sel d' = dc_sel d /\ dc_files d' = files_overlap (dc_tids d') (dc_files d) /\ incl (dc_tids d') (dc_tids d).
Proof.
  intros d tr d' H. unfold select_trains in H. apply bind_ok in H as (tids & E & H). apply mk_collection_inv in H as (H1 & _ & H2 & H3 & _).
  rewrite H3. split; [exact E|]. split; [exact H2|]. split; [exact H1|]. eapply new_tids_incl; exact E.
Qed.
Lemma overlap_In : forall tids (files : list faccess) f, In f (files_overlap tids files) <-> In f files /\ exists t, In t (fa_tids f) /\ In t tids.
Proof.
  intros tids files f. unfold files_overlap. rewrite filter_In, existsb_exists. apply and_iff_ctx. intros _.
  split; intros (t & H1 & H2); exists t; (split; [assumption|]); now apply z_in_iff.
Qed.
Lemma by_id_list : forall (d : dcoll) l, reachable d -> l <> [] -> StronglySorted Z.lt l -> incl l (dc_tids d) ->
  exists d', select_trains d (ByIdList l) = Ok d' /\ dc_tids d' = l.
Proof.
  intros d l R Hn Hs Hi.
  assert (E : new_train_ids (dc_tids d) (ByIdList l) = Ok l).
  { cbn [new_train_ids]. assert (X : zsort_set (filter (fun t => z_in t l) (dc_tids d)) = l).
    { apply sorted_lt_ext; [apply zsort_set_sorted|exact Hs|]. intros t. rewrite zsort_set_In, filter_In, z_in_iff. split; [tauto|]. intros H. split; [now apply Hi|exact H]. }
    rewrite X. destruct l; [contradiction|reflexivity]. }
  destruct (select_trains_ok R E) as (d' & H & H' & _). eauto.
Qed.

Lemma in_two : forall A (x y : A) l, In x l -> In y l -> x <> y -> exists a b c, l = a ++ x :: b ++ y :: c \/ l = a ++ y :: b ++ x :: c.
Proof.
  intros A x y l Hx Hy N. apply in_split in Hx as (a & b & ->). apply in_app_iff in Hy as [Hy|[Hy|Hy]].
  - apply in_split in Hy as (a1 & a2 & ->). exists a1, a2, b. right. now rewrite <- app_assoc.
  - congruence.
  - apply in_split in Hy as (b1 & b2 & ->). exists a, b1, b2. now left.
Qed.
Lemma no_conflict_incl : forall l l' : list faccess, NoDup l' -> incl l' l -> ~ conflicting l -> ~ conflicting l'.
Proof.
  intros l l' N I H (a & f1 & b & f2 & c & s & t & E & H1 & H2 & H3 & H4). apply H.
  assert (F1 : In f1 l) by (apply I; rewrite E; apply in_or_app; right; now left).
  assert (F2 : In f2 l) by (apply I; rewrite E; apply in_or_app; right; right; apply in_or_app; right; now left).
  assert (Ne : f1 <> f2).
  { intros <-. rewrite E in N. apply NoDup_remove_2 in N. apply N. apply in_or_app. right. apply in_or_app. right. now left. }
  destruct (in_two F1 F2 Ne) as (a' & b' & c' & [E'|E']); [exists a', f1, b', f2, c', s, t|exists a', f2, b', f1, c', s, t]; auto 6.
Qed.
Lemma built_no_conflict : forall d : dcoll, built d -> ~ conflicting (dc_files d).
Proof.
  intros d (H & _) C. assert (X := proj1 (@conflict_spec V (dc_files d) None None) C). unfold mk_collection in X. rewrite H in X. discriminate.
Qed.

(** Parts of the trains, joined again. *)
Theorem split_union : forall (d : dcoll) ds r, reachable d -> ds <> [] -> (forall p, In p ds -> exists tr, select_trains d tr = Ok p) ->
  consistent_names (dc_files d) -> uniform_keys (dc_files d) -> is_union ds r ->
  exists d', r = Ok d' /\ StronglySorted Z.lt (dc_tids d') /\ (forall t, In t (dc_tids d') <-> exists p, In p ds /\ In t (dc_tids p)) /\
    (dc_tids d' <> [] -> exists d'', select_trains d (ByIdList (dc_tids d')) = Ok d'' /\ same_content d' d'').
Proof.
  intros d ds r R Hne Hds C U HU. destruct (reachable_inv R) as [Hb _].
  assert (HR : forall p, In p ds -> reachable p) by (intros p Hp; destruct (Hds p Hp) as [tr H]; exact (reach_trains _ R H)).
  assert (Hinv : forall p, In p ds -> dc_sel p = dc_sel d /\ (forall f, In f (dc_files p) <-> In f (dc_files d) /\ exists t, In t (fa_tids f) /\ In t (dc_tids p)) /\ incl (dc_tids p) (dc_tids d)).
  { intros p Hp. destruct (Hds p Hp) as [tr H]. destruct (trains_inv H) as (_ & H1 & H2 & H3). split; [exact H1|]. split; [|exact H3]. intros f. rewrite H2. apply overlap_In. }
  assert (Hall : incl (all_files ds) (dc_files d)).
  { intros f Hf. apply all_files_In in Hf as (p & Hp & Hf). now apply (Hinv p Hp) in Hf as [Hf _]. }
  assert (C' : consistent_names (all_files ds)) by (intros f f' F F'; apply C; auto).
  assert (U' : uniform_keys (all_files ds)) by (eapply uniform_incl; eassumption).
  destruct (union_outcome HU) as [[X _]|[_ [d' ->]]].
  { exfalso. revert X. apply (@no_conflict_incl (dc_files d)); [apply (dedup_nodup (all_files ds))| |now apply built_no_conflict].
    intros f Hf. apply (union_files_In f C') in Hf. apply Hall. now apply all_files_In. }
  exists d'. split; [reflexivity|]. destruct (union_spec HR C' HU) as (B & S & T & F & So). split; [exact S|]. split; [exact T|].
  intros Hn. destruct (@by_id_list d (dc_tids d') R Hn S) as (d'' & Ed & Et).
  { intros t Ht. apply T in Ht as (p & Hp & Ht). now apply (Hinv p Hp). }
  exists d''. split; [exact Ed|]. destruct (trains_inv Ed) as (_ & Es & Ef & _). destruct (reachable_inv (reach_trains _ R Ed)) as [B'' _].
  assert (Hf : forall f, In f (dc_files d') <-> In f (dc_files d'')).
  { intros f. rewrite F, Ef, overlap_In. split.
    - intros (p & Hp & Hf). apply (Hinv p Hp) in Hf as (Hf & t & H1 & H2). split; [exact Hf|]. exists t. split; [exact H1|]. rewrite Et. apply T. eauto.
    - intros (Hf & t & H1 & H2). rewrite Et in H2. apply T in H2 as (p & Hp & H2). exists p. split; [exact Hp|]. apply (Hinv p Hp). eauto. }
  assert (Hsome : exists p, In p ds) by (destruct ds as [|p ps]; [contradiction|exists p; now left]).
  assert (Hsrc : forall s, In s (dc_sources d') <-> In s (dc_sources d'')).
  { intros s. rewrite So, (dc_sources_In s B''), Es. split.
    - intros ((p & Hp & H1) & p' & f & Hp' & H2 & H3). rewrite (proj1 (Hinv p Hp)) in H1. split; [exact H1|]. exists f. split; [|exact H3]. apply Hf, F. eauto.
    - intros (H1 & f & H2 & H3). split.
      + destruct Hsome as [p Hp]. exists p. split; [exact Hp|]. now rewrite (proj1 (Hinv p Hp)).
      + apply Hf, F in H2 as (p & Hp & H2). eauto. }
  destruct (union_uniform HR C' HU U') as [V1 _].
  assert (V2 : uniform_keys (dc_files d'')) by (eapply uniform_incl; [|exact V1]; intros f; apply Hf).
  assert (Hst : forall s k, stored_key d' s k <-> stored_key d'' s k).
  { intros s k. rewrite (stored_uniform s k V1), (stored_uniform s k V2). split; intros (f & ks & H & H'); exists f, ks; (split; [now apply Hf|assumption]). }
  split; [now rewrite Et|]. split; [exact Hsrc|]. split.
  - intros s k. rewrite (available_iff s k B), (available_iff s k B''), <- Hsrc. apply and_iff_ctx. intros Hs.
    destruct (union_sel s HR HU) as [L1 L2].
    assert (Hs2 := proj1 (Hsrc s) Hs). apply (dc_sources_In s B) in Hs as [Hs _]. apply (dc_sources_In s B'') in Hs2 as [Hs2 _].
    apply dict_get_keys in Hs as [o1 O1]. apply dict_get_keys in Hs2 as [o2 O2]. rewrite O1, O2 in *. rewrite Es in O2.
    destruct o1 as [u1|], o2 as [u2|].
    + destruct (L2 u1 eq_refl) as [_ L3]. rewrite L3. split.
      * intros (p & ks & Hp & H & Hk). rewrite (proj1 (Hinv p Hp)), O2 in H. now injection H as <-.
      * intros Hk. destruct Hsome as [p Hp]. exists p, u2. rewrite (proj1 (Hinv p Hp)). auto.
    + exfalso. destruct (L2 u1 eq_refl) as [L3 _]. destruct Hsome as [p Hp]. apply (L3 p Hp). now rewrite (proj1 (Hinv p Hp)).
    + exfalso. destruct (proj1 L1 eq_refl) as (p & Hp & H). rewrite (proj1 (Hinv p Hp)), O2 in H. discriminate.
    + apply Hst.
  - intros f s t. unfold holds. rewrite Hf. reflexivity.
Qed.

(** Parts which have all the trains give back the whole. *)
Theorem split_all : forall (d : dcoll) ds r, reachable d -> ds <> [] -> (forall p, In p ds -> exists tr, select_trains d tr = Ok p) ->
  consistent_names (dc_files d) -> uniform_keys (dc_files d) -> StronglySorted Z.lt (dc_tids d) -> dc_tids d <> [] ->
  (forall f, In f (dc_files d) -> exists t, In t (fa_tids f) /\ In t (dc_tids d)) ->
  (forall t, In t (dc_tids d) -> exists p, In p ds /\ In t (dc_tids p)) -> is_union ds r ->
  exists d', r = Ok d' /\ same_content d' d.
Proof.
  intros d ds r R Hne Hds C U Hs Hn Hf Hc HU. destruct (split_union R Hne Hds C U HU) as (d' & E & S & T & W). exists d'. split; [exact E|].
  assert (ET : dc_tids d' = dc_tids d).
  { apply sorted_lt_ext; [exact S|exact Hs|]. intros t. rewrite T. split; [|apply Hc]. intros (p & Hp & Ht). destruct (Hds p Hp) as [tr H].
    now apply (trains_inv H). }
  destruct W as (d'' & H & A1 & A2 & A3 & A4); [congruence|]. destruct (trains_inv H) as (_ & Es & Ef & _).
  assert (T2 : dc_tids d'' = dc_tids d) by congruence.
  assert (F2 : dc_files d'' = dc_files d).
  { rewrite Ef, T2. unfold files_overlap. assert (G : forall f, In f (dc_files d) -> existsb (fun t => z_in t (dc_tids d)) (fa_tids f) = true).
    { intros f F. destruct (Hf f F) as (t & H1 & H2). apply existsb_exists. exists t. split; [exact H1|now apply z_in_iff]. }
    revert G. generalize (dc_files d) as l. induction l as [|f l IH]; intros G; [reflexivity|]. cbn [filter]. rewrite (G f (or_introl eq_refl)). f_equal. apply IH. intros g Hg. apply G. now right. }
  destruct (reachable_inv R) as [B _]. destruct (reachable_inv (reach_trains _ R H)) as [B'' _].
  assert (S2 : forall s, In s (dc_sources d'') <-> In s (dc_sources d)) by (intros s; rewrite (dc_sources_In s B''), (dc_sources_In s B), Es, F2; reflexivity).
  split; [exact ET|]. split; [intros s; now rewrite A2|]. split.
  - intros s k. rewrite A3, (available_iff s k B''), (available_iff s k B), S2, Es. unfold stored_key, first_file. rewrite F2. reflexivity.
  - intros f s t. rewrite A4. unfold holds. rewrite F2. reflexivity.
Qed.

(** Selecting twice is selecting once. *)
Theorem trains_twice : forall (d : dcoll) tr1 d1 tr2 d2, reachable d -> select_trains d tr1 = Ok d1 -> select_trains d1 tr2 = Ok d2 ->
  dc_tids d2 <> [] -> StronglySorted Z.lt (dc_tids d2) -> select_trains d (ByIdList (dc_tids d2)) = Ok d2.
Proof.
  intros d tr1 d1 tr2 d2 R H1 H2 Hn Hs. destruct (trains_inv H1) as (_ & S1 & F1 & I1). destruct (trains_inv H2) as (_ & S2 & F2 & I2).
  destruct (@by_id_list d (dc_tids d2) R Hn Hs) as (d3 & H3 & T3); [eapply incl_tran; eassumption|]. rewrite H3. f_equal.
  unfold select_trains in H2, H3. apply bind_ok in H2 as (t2 & _ & H2). apply bind_ok in H3 as (t3 & _ & H3).
  assert (E2 : t2 = dc_tids d2) by (apply mk_collection_inv in H2 as (_ & _ & _ & X & _); auto).
  assert (E3 : t3 = dc_tids d2) by (apply mk_collection_inv in H3 as (_ & _ & _ & X & _); rewrite <- T3; auto). subst t2 t3.
  assert (EF : files_overlap (dc_tids d2) (dc_files d1) = files_overlap (dc_tids d2) (dc_files d)).
  { rewrite F1. unfold files_overlap. clear - I2. induction (dc_files d) as [|f l IH]; [reflexivity|]. cbn [filter].
    destruct (existsb (fun t => z_in t (dc_tids d1)) (fa_tids f)) eqn:E1; cbn [filter]; rewrite IH; [reflexivity|].
    destruct (existsb (fun t => z_in t (dc_tids d2)) (fa_tids f)) eqn:E2; [|reflexivity]. exfalso.
    apply existsb_exists in E2 as (t & A & B). apply z_in_iff in B. assert (X : existsb (fun t => z_in t (dc_tids d1)) (fa_tids f) = true).
    { apply existsb_exists. exists t. split; [exact A|]. apply z_in_iff. auto. } congruence. }
  rewrite EF, S1 in H2. congruence.
Qed.

(** ** The order of selecting data and selecting trains *)
Lemma trains_sources : forall (d : dcoll) tr d' s, reachable d -> select_trains d tr = Ok d' ->
  (In s (dc_sources d') <-> In s (dc_sources d) /\ exists f, In f (files_overlap (dc_tids d') (dc_files d)) /\ In s (fa_sources f)).
Proof.
  intros d tr d' s R H. destruct (reachable_inv R) as [B _]. destruct (reachable_inv (reach_trains _ R H)) as [B' _].
  destruct (trains_inv H) as (_ & S & F & _). rewrite (dc_sources_In s B'), (dc_sources_In s B), S, F. split.
  - intros (H1 & f & H2 & H3). split; [split; [exact H1|]|eauto]. exists f. split; [|exact H3]. now apply overlap_In in H2.
  - intros ((H1 & _) & H2). auto.
Qed.
Lemma trains_keys : forall (d : dcoll) tr d' s k, reachable d -> uniform_keys (dc_files d) -> select_trains d tr = Ok d' ->
  (available d' s k <-> available d s k /\ In s (dc_sources d')).
Proof.
  intros d tr d' s k R U H. split.
  - intros A. split; [eapply select_trains_available; eassumption|apply A].
  - intros [A B]. eapply select_trains_available_rev; eassumption.
Qed.
Lemma trains_stored : forall (d : dcoll) tr d' s k, reachable d -> uniform_keys (dc_files d) -> select_trains d tr = Ok d' ->
  In s (dc_sources d') -> (stored_key d' s k <-> stored_key d s k).
Proof.
  intros d tr d' s k R U H Hs. destruct (trains_inv H) as (_ & _ & F & _).
  assert (I : incl (dc_files d') (dc_files d)) by (rewrite F; intros f Hf; now apply overlap_In in Hf).
  assert (U' : uniform_keys (dc_files d')) by (eapply uniform_incl; eassumption).
  rewrite (stored_uniform s k U), (stored_uniform s k U'). split.
  - intros (f & ks & H1 & H2). exists f, ks. auto.
  - intros (f & ks & H1 & H2 & H3 & H4). apply (trains_sources s R H) in Hs as (_ & g & G1 & G2). rewrite <- F in G1.
    destruct (fa_get_keys_ok G2) as [ks' G3]. exists g, ks'. do 3 (split; [assumption|]).
    exact (proj1 (U f g s ks ks' H1 (I _ G1) H2 G2 H3 G3 k) H4).
Qed.
Lemma trains_control : forall (d : dcoll) tr d' s, reachable d -> distinct_kinds d -> select_trains d tr = Ok d' ->
  In s (dc_sources d') -> is_control d' s = is_control d s.
Proof.
  intros d tr d' s R D H Hs. destruct (reachable_inv R) as [B _]. destruct (reachable_inv (reach_trains _ R H)) as [B' _].
  assert (Hs0 := proj1 (trains_sources s R H) Hs). destruct Hs0 as (Hs0 & f & F1 & F2).
  destruct (trains_inv H) as (_ & _ & F & _). apply overlap_In in F1 as F1'.
  assert (D' : distinct_kinds d') by (intros a b x Ha Hb; rewrite F in Ha, Hb; apply overlap_In in Ha, Hb; apply D; tauto).
  unfold is_control. rewrite (@ctrl_kind V d s f B D Hs0 (proj1 F1') F2). apply ctrl_kind; auto. now rewrite F.
Qed.

(** [d1] keeps some of the sources of [d], and the files which hold one of them. *)
Definition kept_files (d d1 : dcoll) : Prop :=
  dc_tids d1 = dc_tids d /\ forall f, In f (dc_files d1) <-> In f (dc_files d) /\ exists s, In s (fa_sources f) /\ In s (dc_sources d1).
Lemma restrict_kept : forall (d : dcoll) sel d1, reachable d -> mk_collection (files_with sel (dc_files d)) (Some sel) (Some (dc_tids d)) = Ok d1 -> kept_files d d1.
Proof.
  intros d sel d1 R H. destruct (restrict_ok sel R) as (d' & E & _ & T & _ & F & S & _). rewrite H in E. injection E as <-.
  split; [exact T|]. intros f. rewrite F. unfold files_with. rewrite filter_In, existsb_exists. split.
  - intros (H1 & s & H2 & H3). split; [exact H1|]. exists s. split; [exact H2|]. apply S. split; [now apply str_in_iff|eauto].
  - intros (H1 & s & H2 & H3). split; [exact H1|]. exists s. split; [exact H2|]. apply str_in_iff. now apply S in H3.
Qed.
Lemma select_kept : forall (d : dcoll) a d1, reachable d -> select d a = Ok d1 -> kept_files d d1.
Proof. intros d a d1 R H. unfold select in H. apply bind_ok in H as (sel & _ & H). eapply restrict_kept; eassumption. Qed.
Lemma deselect_kept : forall (d : dcoll) a d1, reachable d -> deselect d a = Ok d1 -> kept_files d d1.
Proof. intros d a d1 R H. unfold deselect in H. apply bind_ok in H as (sel & _ & H). apply bind_ok in H as (l & _ & H). eapply restrict_kept; eassumption. Qed.

Lemma swap : forall (d : dcoll) tr d1 d2 db, reachable d -> reachable d1 -> uniform_keys (dc_files d) -> select_trains d tr = Ok d2 ->
  kept_files d d1 -> kept_files d2 db -> incl (dc_sources d1) (dc_sources d) -> incl (dc_sources db) (dc_sources d2) ->
  (forall s, In s (dc_sources d2) -> (In s (dc_sources db) <-> In s (dc_sources d1))) ->
  (forall s k, In s (dc_sources d2) -> (available db s k <-> available d1 s k)) ->
  exists da, select_trains d1 tr = Ok da /\ same_content da db.
Proof.
  intros d tr d1 d2 db R R1 U H2 K1 Kb I1 Ib HS HA. destruct (trains_inv H2) as (N2 & _ & F2 & _).
  assert (N1 := N2). rewrite <- (proj1 K1) in N1. destruct (select_trains_ok R1 N1) as (da & Ha & Ta & _). exists da. split; [exact Ha|].
  destruct (trains_inv Ha) as (_ & _ & Fa & _). assert (Tb := proj1 Kb).
  assert (U1 : uniform_keys (dc_files d1)) by (eapply uniform_incl; [|exact U]; intros f Hf; now apply (proj2 K1)).
  assert (S2 : forall s f, In s (dc_sources d1) -> In f (dc_files d2) -> In s (fa_sources f) -> In s (dc_sources da) /\ In s (dc_sources db)).
  { intros s f Hs Hf Hsf. assert (Hs2 : In s (dc_sources d2)) by (apply (trains_sources s R H2); rewrite <- F2; split; [now apply I1|eauto]).
    split; [|now apply HS]. apply (trains_sources s R1 Ha). split; [exact Hs|]. exists f. split; [|exact Hsf]. rewrite F2 in Hf.
    apply overlap_In in Hf as [Hf Ho]. apply overlap_In. rewrite Ta. split; [|exact Ho]. apply (proj2 K1). eauto. }
  assert (Fd : forall f, In f (dc_files da) <-> In f (dc_files d2) /\ exists s, In s (fa_sources f) /\ In s (dc_sources d1)).
  { intros f. rewrite Fa, F2, !overlap_In, (proj2 K1), Ta. tauto. }
  assert (Sa : forall s, In s (dc_sources da) <-> In s (dc_sources db)).
  { intros s. split.
    - intros Hs. apply (trains_sources s R1 Ha) in Hs as (Hs & f & Hf & Hsf). rewrite <- Fa in Hf. apply Fd in Hf as [Hf _]. exact (proj2 (S2 s f Hs Hf Hsf)).
    - intros Hs. assert (Hs2 := Ib _ Hs). assert (Hs1 := proj1 (HS s Hs2) Hs). apply (trains_sources s R H2) in Hs2 as (_ & f & Hf & Hsf).
      rewrite <- F2 in Hf. exact (proj1 (S2 s f Hs1 Hf Hsf)). }
  split; [congruence|]. split; [exact Sa|]. split.
  - intros s k. rewrite (trains_keys s k R1 U1 Ha). split.
    + intros [A B]. apply Sa in B. apply (HA s k (Ib _ B)). exact A.
    + intros A. assert (B : In s (dc_sources db)) by apply A. split; [apply (HA s k (Ib _ B)); exact A|now apply Sa].
  - intros f s t. unfold holds. rewrite Fd, (proj2 Kb). split.
    + intros ((Hf & x & Hx & Hx1) & H). split; [|exact H]. split; [exact Hf|]. exists x. split; [exact Hx|]. exact (proj2 (S2 x f Hx1 Hf Hx)).
    + intros ((Hf & x & Hx & Hx1) & H). split; [|exact H]. split; [exact Hf|]. exists x. split; [exact Hx|]. apply (HS x (Ib _ Hx1)). exact Hx1.
Qed.

Lemma star_dec : forall L s, Forall valid_pair L ->
  (exists p, In p L /\ snd p = "*" /\ glob (fst p) s) \/ ~ (exists p, In p L /\ snd p = "*" /\ glob (fst p) s).
Proof.
  intros L s HV. induction L as [|p L IH]; [right; intros (p & [] & _)|].
  inversion HV as [|? ? Hp HL]; subst. destruct (IH HL) as [H|H]; [left; destruct H as (q & Hq & H); exists q; split; [now right|exact H]|].
  destruct (string_dec (snd p) "*") as [Es|Es].
  - destruct (valid_compiles (proj1 Hp)) as [ts Hts]. destruct (glob_match ts s) eqn:Em.
    + left. exists p. split; [now left|]. split; [assumption|]. now apply (glob_compile_spec s Hts).
    + right. intros (q & [<-|Hq] & H1 & H2); [|apply H; eauto]. apply (glob_compile_spec s Hts) in H2. congruence.
  - right. intros (q & [<-|Hq] & H1 & H2); [congruence|apply H; eauto].
Qed.

Section Swap.
Context (d : dcoll) (tr : train_range) (d2 : dcoll).
Hypothesis R : reachable d.
Hypothesis D : distinct_kinds d.
Hypothesis U : uniform_keys (dc_files d).
Hypothesis H2 : select_trains d tr = Ok d2.

Lemma hits_same : forall p s k, In s (dc_sources d2) -> (hits d2 p s k <-> hits d p s k).
Proof. intros p s k Hs. unfold hits. rewrite (trains_control R D H2 Hs). reflexivity. Qed.
Lemma hits_source_same : forall p s, hits_source d2 p s <-> hits_source d p s /\ In s (dc_sources d2).
Proof.
  intros p s. unfold hits_source. split.
  - intros (Hs & G & K). split; [|exact Hs]. split; [now apply (trains_sources s R H2) in Hs|]. split; [exact G|]. destruct K as [K|(k & A & K)]; [now left|right].
    exists k. split; [now apply (trains_keys s k R U H2)|]. now apply hits_same.
  - intros ((_ & G & K) & Hs). split; [exact Hs|]. split; [exact G|]. destruct K as [K|(k & A & K)]; [now left|right].
    exists k. split; [now apply (trains_keys s k R U H2)|]. now apply hits_same.
Qed.
Lemma sources_incl : incl (dc_sources d2) (dc_sources d).
Proof. intros s Hs. now apply (trains_sources s R H2) in Hs. Qed.

Lemma all_hit : forall L sel, Forall valid_pair L -> expand_selection d2 (SelGlobs L) = Ok sel -> forall p, In p L -> exists s, hits_source d2 p s.
Proof.
  intros L sel HV E p Hp. cbn [expand_selection] in E. apply bind_ok in E as (r & E & _). apply mapM_ok_iff in E. destruct (Forall2_In_l E Hp) as (x & _ & Ex).
  destruct (reachable_inv (reach_trains _ R H2)) as [B2 _].
  destruct (select_glob_spec B2 (proj1 (Forall_forall _ _) HV p Hp)) as [[_ X]|[X _]]; [congruence|exact X].
Qed.
Lemma all_sources : forall l sel, (forall s ks, In (s, ks) l -> ks <> []) -> NoDup (map fst l) -> expand_selection d2 (SelDict l) = Ok sel ->
  forall s, In s (map fst l) -> In s (dc_sources d2).
Proof.
  intros l sel Hn Nd E s Hs. destruct (in_dec string_dec s (dc_sources d2)) as [X|X]; [exact X|exfalso].
  destruct (@expand_dict V d2 l Hn Nd) as [E1 _]. rewrite E1 in E; [discriminate|eauto].
Qed.

Theorem order_select : forall a db, proper a -> select d2 a = Ok db ->
  exists d1 da, select d a = Ok d1 /\ select_trains d1 tr = Ok da /\ same_content da db.
Proof.
  intros a db P Hb. assert (R2 := reach_trains _ R H2). assert (Ib := proj1 (proj2 (proj2 (select_narrower R2 Hb)))).
  assert (Kb := select_kept R2 Hb). assert (X : exists sel, expand_selection d2 a = Ok sel) by (unfold select in Hb; apply bind_ok in Hb as (sel & E & _); eauto).
  destruct X as [sel X]. destruct a as [l|L|]; [destruct P as [Hn Nd]| |contradiction].
  - assert (A2 := all_sources Hn Nd X). destruct (select_dict_spec R2 Hn Nd) as [_ S2]. destruct (S2 A2) as (db' & E & _ & Sb & Ab). rewrite Hb in E. injection E as <-.
    destruct (select_dict_spec R Hn Nd) as [_ S1]. destruct (S1 (fun s Hs => sources_incl (A2 s Hs))) as (d1 & E1 & _ & Sd & Ad).
    destruct (@swap d tr d1 d2 db) as (da & Ha & C); auto.
    + exact (reach_select _ R E1).
    + exact (select_kept R E1).
    + exact (proj1 (proj2 (proj2 (select_narrower R E1)))).
    + intros s _. rewrite Sb, Sd. reflexivity.
    + intros s k _. rewrite Ab, Ad. reflexivity.
    + exists d1, da. auto.
  - assert (A2 := all_hit P X). destruct (select_globs_spec R2 P) as [_ S2]. destruct (S2 A2) as (db' & E & _ & Sb & Ab1 & Ab2). rewrite Hb in E. injection E as <-.
    destruct (select_globs_spec R P) as [_ S1]. destruct S1 as (d1 & E1 & _ & Sd & Ad1 & Ad2).
    { intros p Hp. destruct (A2 p Hp) as [s Hs]. exists s. now apply hits_source_same in Hs. }
    destruct (@swap d tr d1 d2 db) as (da & Ha & C); auto.
    + exact (reach_select _ R E1).
    + exact (select_kept R E1).
    + exact (proj1 (proj2 (proj2 (select_narrower R E1)))).
    + intros s Hs. rewrite Sb, Sd. split; intros (p & Hp & Hh); exists p; (split; [exact Hp|]); [now apply hits_source_same in Hh|apply hits_source_same; auto].
    + intros s k Hs. destruct (star_dec s P) as [Y|Y].
      * rewrite (Ab1 s k Y), (Ad1 s k Y), (trains_stored k R U H2 Hs). assert (Hs0 := sources_incl Hs). tauto.
      * rewrite (Ab2 s k Y), (Ad2 s k Y), (trains_keys s k R U H2). split.
        -- intros ((A & _) & p & Hp & Hh). split; [exact A|]. exists p. split; [exact Hp|]. now apply hits_same in Hh.
        -- intros (A & p & Hp & Hh). split; [auto|]. exists p. split; [exact Hp|]. now apply hits_same.
    + exists d1, da. auto.
Qed.

Theorem order_deselect : forall a db, proper a -> deselect d2 a = Ok db ->
  exists d1 da, deselect d a = Ok d1 /\ select_trains d1 tr = Ok da /\ same_content da db.
Proof.
  intros a db P Hb. assert (R2 := reach_trains _ R H2). assert (Ib := proj1 (proj2 (proj2 (deselect_narrower R2 Hb)))).
  assert (Kb := deselect_kept R2 Hb). assert (X : exists sel, expand_selection d2 a = Ok sel) by (unfold deselect in Hb; apply bind_ok in Hb as (sel & E & _); eauto).
  destruct X as [sel X]. destruct a as [l|L|]; [destruct P as [Hn Nd]| |contradiction].
  - assert (A2 := all_sources Hn Nd X). destruct (deselect_dict_spec R2 Hn Nd) as [_ S2]. destruct (S2 A2) as (db' & E & _ & Sb & Ab). rewrite Hb in E. injection E as <-.
    destruct (deselect_dict_spec R Hn Nd) as [_ S1]. destruct (S1 (fun s Hs => sources_incl (A2 s Hs))) as (d1 & E1 & _ & Sd & Ad).
    destruct (@swap d tr d1 d2 db) as (da & Ha & C); auto.
    + exact (reach_deselect _ R E1).
    + exact (deselect_kept R E1).
    + exact (proj1 (proj2 (proj2 (deselect_narrower R E1)))).
    + intros s Hs. rewrite Sb, Sd. assert (Hs0 := sources_incl Hs). tauto.
    + intros s k Hs. rewrite Ab, Ad, (trains_keys s k R U H2). tauto.
    + exists d1, da. auto.
  - assert (A2 := all_hit P X). destruct (deselect_globs_spec R2 P) as [_ S2]. destruct (S2 A2) as (db' & E & _ & Sb & Ab). rewrite Hb in E. injection E as <-.
    destruct (deselect_globs_spec R P) as [_ S1]. destruct S1 as (d1 & E1 & _ & Sd & Ad).
    { intros p Hp. destruct (A2 p Hp) as [s Hs]. exists s. now apply hits_source_same in Hs. }
    destruct (@swap d tr d1 d2 db) as (da & Ha & C); auto.
    + exact (reach_deselect _ R E1).
    + exact (deselect_kept R E1).
    + exact (proj1 (proj2 (proj2 (deselect_narrower R E1)))).
    + intros s Hs. rewrite Sb, Sd. assert (Hs0 := sources_incl Hs). tauto.
    + intros s k Hs. rewrite Ab, Ad, (trains_keys s k R U H2). split.
      * intros ((A & _) & N). split; [exact A|]. intros (p & Hp & Hh). apply N. exists p. split; [exact Hp|]. now apply hits_same.
      * intros (A & N). split; [auto|]. intros (p & Hp & Hh). apply N. exists p. split; [exact Hp|]. now apply hits_same in Hh.
    + exists d1, da. auto.
Qed.
End Swap.
End T.
