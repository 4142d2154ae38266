(** Lemmas: arguments devices and train_range. *)
From Verif Require Import Base PyStr M_Files M_Machinery M_Reader M_Glob M_Select S_Reader S_Coll S_Glob S_Select S_Avail S_Hist
  L_Base L_Machinery L_Reader L_GetArray L_Select L_Trains L_SelTrains L_Array2 L_Glob L_Sel2 L_Sel3 L_Hist L_Union M_Args S_Args P_Select.
Set Implicit Arguments.
Unset Strict Implicit.
Local Open Scope string_scope.
Local Open Scope list_scope.

Section A.
Context {V : Type}.
Notation dcoll := (dcoll V).
Notation faccess := (faccess V).

Definition as_sel (devices : option (list (string * string))) : option sel_arg := option_map SelGlobs devices.

Lemma select_trains_available_rev : forall (d : dcoll) tr d' s k, reachable d -> uniform_keys (dc_files d) ->
  select_trains d tr = Ok d' -> available d s k -> In s (dc_sources d') -> available d' s k.
Proof.
  intros d tr d' s k R U H A Hs. destruct (trains_narrower R H) as (N1 & _ & N3 & _).
  destruct (reachable_inv R) as [Hb _]. destruct (reachable_inv (reach_trains _ R H)) as [Hb' _].
  apply (available_iff s k Hb) in A as [A1 A2]. apply (available_iff s k Hb'). split; [auto|].
  assert (Es : dc_sel d' = dc_sel d).
  { unfold select_trains in H. apply bind_ok in H as (tids & E & H). apply mk_collection_inv in H as (_ & _ & H & _). exact H. }
  rewrite Es. assert (X : stored_key d s k -> stored_key d' s k).
  { intros X. apply stored_uniform; [eapply uniform_incl; eassumption|]. apply stored_uniform in X; [|assumption].
    destruct X as (f & ks & X1 & X2 & X3 & X4). apply (dc_sources_In s Hb') in Hs as (_ & g & G1 & G2). destruct (fa_get_keys_ok G2) as [ks' Hks'].
    exists g, ks'. split; [assumption|]. split; [assumption|]. split; [assumption|]. exact (proj1 (U f g s ks ks' X1 (N1 g G1) X2 G2 X3 Hks' k) X4). }
  destruct (dict_get s (dc_sel d)) as [[ks|]|]; auto.
Qed.

Lemma tid_in : forall (x : dcoll) t z, train_from_id x t = Ok (t, z) -> In t (dc_tids x).
Proof.
  intros x t z Ex. destruct (in_dec Z.eq_dec t (dc_tids x)) as [H|H]; [assumption|]. rewrite (train_from_id_missing H) in Ex. discriminate.
Qed.
Lemma item_none : forall (d : dcoll) t r s k, reachable d -> good_collection d -> train_from_id d t = Ok (t, r) ->
  ~ available d s k -> item r s k = None.
Proof.
  intros d t r s k R G E H. destruct (train_from_id_correct R G (tid_in E)) as (r' & E' & T1 & T2). rewrite E in E'. injection E' as <-.
  unfold item. destruct (in_dec string_dec s (dc_sources d)) as [Hs|Hs].
  - destruct (T2 s Hs) as (sd & -> & _ & _ & Hk). destruct (reachable_inv R) as [Hb _]. destruct (keys_for_source_ok Hb Hs) as [ks Hks].
    apply (proj1 (Hk _ Hks)). intros X. apply H. split; [assumption|eauto].
  - destruct (dict_get s r) eqn:Ed; [|reflexivity]. exfalso. apply Hs, T1, dict_get_keys. eauto.
Qed.
Lemma item_not_held : forall (d : dcoll) t r s k, reachable d -> good_collection d -> train_from_id d t = Ok (t, r) ->
  (forall f, ~ holds d f s t) -> item r s k = None.
Proof.
  intros d t r s k R G E H. destruct (train_from_id_correct R G (tid_in E)) as (r' & E' & T1 & T2). rewrite E in E'. injection E' as <-.
  unfold item. destruct (in_dec string_dec s (dc_sources d)) as [Hs|Hs].
  - destruct (T2 s Hs) as (sd & -> & _ & _ & Hk). destruct (reachable_inv R) as [Hb _]. destruct (keys_for_source_ok Hb Hs) as [ks Hks].
    destruct (Hk _ Hks) as (K1 & K2 & _). destruct (in_dec string_dec k ks); auto.
  - destruct (dict_get s r) eqn:Ed; [|reflexivity]. exfalso. apply Hs, T1, dict_get_keys. eauto.
Qed.

Lemma star_dec : forall L s, Forall valid_pair L ->
  (exists p, In p L /\ snd p = "*" /\ glob (fst p) s) \/ ~ (exists p, In p L /\ snd p = "*" /\ glob (fst p) s).
Proof.
  intros L s HV. induction L as [|p L IH]; [right; intros (p & [] & _)|].
  inversion HV as [|? ? Hp HL]; subst. destruct (IH HL) as [H|H]; [left; destruct H as (q & Hq & H); exists q; split; [now right|exact H]|].
  destruct (string_dec (snd p) "*") as [Es|Es].
  - destruct (valid_compiles (proj1 Hp)) as [ts Hts]. destruct (glob_match ts s) eqn:Em.
    + left. exists p. split; [now left|]. split; [assumption|]. now apply (glob_compile_spec s Hts).
    + right. intros (q & [<-|Hq] & H1 & H2); [|apply H; eauto]. apply (glob_compile_spec s Hts) in H2. congruence.
  - right. intros (q & [<-|Hq] & H1 & H2); [congruence|apply H; eauto].
Qed.

(** The collection after the selection of sources and keys. *)
Lemma select_opt_spec : forall (d : dcoll) devices,
  reachable d -> keeps_keys d devices -> usable d devices ->
  exists d1, select_opt d (as_sel devices) = Ok d1 /\ derived d d1 /\ dc_tids d1 = dc_tids d /\
    (forall s k, available d1 s k <-> asked d devices s k) /\ (forall s, In s (dc_sources d1) <-> asked_source d devices s).
Proof.
  intros d [L|] R NW U; cbn [as_sel option_map select_opt].
  - destruct U as [U1 U2]. destruct (select_globs_spec R U1) as [_ S2].
    destruct (S2 U2) as (d1 & E1 & T & S & K1 & K2). exists d1. split; [assumption|].
    split; [eapply derived_select; [apply derived_refl|exact E1]|]. split; [assumption|]. split.
    { intros s k. unfold asked. destruct (star_dec s U1) as [D|D]; [|exact (K2 s k D)]. rewrite (K1 s k D). split.
      - intros [H1 H2]. destruct D as (p & Hp & Es & Hg). split; [exact (proj1 (NW p s k Hp Es Hg H1) H2)|]. exists p. split; [assumption|]. split; [assumption|].
        left. rewrite Es. apply glob_star_all.
      - intros [H1 _]. split; [apply H1|]. destruct D as (p & Hp & Es & Hg). exact (proj2 (NW p s k Hp Es Hg (proj1 H1)) H1). }
    intros s. rewrite S. unfold asked_source. split; [|tauto]. intros (p & Hp & H). split; [apply H|eauto].
  - exists d. split; [reflexivity|]. split; [apply derived_refl|]. split; [reflexivity|]. unfold asked, asked_source. split; intros; tauto.
Qed.

Lemma select_trains_opt_tids : forall (d d1 : dcoll) tr, reachable d -> reachable d1 -> dc_tids d1 = dc_tids d ->
  match select_trains_opt d1 tr, select_trains_opt d tr with
  | Ok a, Ok b => dc_tids a = dc_tids b
  | Err e, Err e' => e = e'
  | _, _ => False
  end.
Proof.
  intros d d1 [tr|] R R1 E; cbn [select_trains_opt]; [|assumption]. destruct (new_train_ids (dc_tids d) tr) as [r|e] eqn:N.
  - destruct (select_trains_ok R N) as (a & -> & Ta & _). rewrite <- E in N. destruct (select_trains_ok R1 N) as (b & -> & Tb & _). congruence.
  - rewrite (select_trains_err N). rewrite <- E in N. now rewrite (select_trains_err N).
Qed.

Lemma args_core : forall (d : dcoll) devices tr d1 d2,
  reachable d -> keeps_keys d devices -> good_collection d ->
  (tr = None \/ uniform_keys (dc_files d)) -> usable d devices ->
  select_opt d (as_sel devices) = Ok d1 -> select_trains_opt d1 tr = Ok d2 ->
  reachable d2 /\ good_collection d2 /\
  forall t, In t (dc_tids d2) -> exists r r2, train_from_id d t = Ok (t, r) /\ train_from_id d2 t = Ok (t, r2) /\
    restricted eq d devices r r2.
Proof.
  intros d devices tr d1 d2 R NW G U HU E1 E2.
  destruct (select_opt_spec R NW HU) as (x & Ex & D1 & T1 & A1 & S1). rewrite E1 in Ex. injection Ex as <-.
  destruct (derived_narrower R D1) as [R1 N1]. assert (A01 : forall s k, available d1 s k -> available d s k) by (intros s k X; apply A1 in X; apply X).
  assert (D2 : derived d d2) by (destruct tr; cbn in E2; [eapply derived_trains; eassumption|injection E2 as <-; assumption]).
  destruct (derived_narrower R D2) as [R2 N2].
  assert (A12 : forall s k, available d2 s k -> available d1 s k).
  { destruct tr as [tr|]; cbn in E2; [|injection E2 as <-; auto]. destruct U as [|U]; [discriminate|]. intros s k X. eapply select_trains_available; [exact R1| |exact E2|exact X].
    eapply uniform_incl; [apply N1|exact U]. }
  assert (A02 : forall s k, available d2 s k -> available d s k) by auto.
  pose proof (narrower_good R R2 N2 G A02) as G2. pose proof (narrower_good R R1 N1 G A01) as G1. split; [assumption|]. split; [assumption|].
  intros t Ht. destruct (derived_trains_same R G D2 A02 Ht) as (r & r2 & Er & Er2 & Ks & It).
  exists r, r2. split; [assumption|]. split; [assumption|]. split; [|split].
  - intros s k Has. apply A1 in Has. destruct (in_dec string_dec s (dc_sources d2)) as [Hs|Hs].
    + symmetry. apply It. destruct tr as [tr|]; cbn in E2; [|injection E2 as <-; assumption]. destruct U as [|U]; [discriminate|].
      eapply select_trains_available_rev; [exact R1| |exact E2|exact Has|exact Hs]. eapply uniform_incl; [apply N1|exact U].
    + assert (Hno2 : forall f, ~ holds d2 f s t).
      { intros f (F1 & F2 & F3). apply Hs. destruct (reachable_inv R2) as [Hb2 _]. apply (dc_sources_In s Hb2). split; [|eauto].
        destruct tr as [tr|]; cbn in E2; [|injection E2 as <-; exfalso; apply Hs, Has].
        assert (Es : dc_sel d2 = dc_sel d1) by (unfold select_trains in E2; apply bind_ok in E2 as (tids & Ed & H); apply mk_collection_inv in H as (_ & _ & H & _); exact H).
        rewrite Es. destruct (reachable_inv R1) as [Hb1 _]. apply (dc_sources_In s Hb1). apply Has. }
      rewrite (item_none R2 G2 Er2) by (intros X; apply Hs; apply X). apply (item_not_held k R G Er). intros f Hf.
      assert (H1 : holds d1 f s t) by (apply N1; [apply Has|rewrite T1; apply N2; assumption|assumption]).
      destruct tr as [tr|]; cbn in E2; [|injection E2 as <-; exact (Hno2 f H1)].
      apply (Hno2 f). unfold select_trains in E2. assert (E0 := E2). apply bind_ok in E2 as (tids & Ed & _).
      destruct (select_trains_ok R1 Ed) as (y & Ey & Ty & _ & Fy). unfold select_trains in Ey. rewrite E0 in Ey. injection Ey as <-.
      destruct H1 as (F1 & F2 & F3). split; [|auto]. rewrite Fy. apply filter_In. split; [assumption|]. apply existsb_exists. exists t. split; [assumption|].
      apply z_in_iff. now rewrite <- Ty.
  - intros s k Hn. apply (item_none R2 G2 Er2). intros X. apply Hn, A1, A12, X.
  - intros s Hs. apply Ks in Hs. apply S1. destruct tr as [tr|]; cbn in E2; [|injection E2 as <-; assumption]. destruct (trains_narrower R1 E2) as (_ & _ & X & _). auto.
Qed.

Lemma trains_args_spec : forall (d : dcoll) devices tr,
  reachable d -> keeps_keys d devices -> good_collection d ->
  (tr = None \/ uniform_keys (dc_files d)) -> usable d devices ->
  match select_trains_opt d tr with
  | Ok dt => exists items, trains_args d (as_sel devices) tr false = Ok items /\
      Forall2 (fun o t => exists whole part, train_from_id d t = Ok (t, whole) /\ o = Ok (t, part) /\
                 restricted (@same_or_empty V) d devices whole part) items (dc_tids dt)
  | Err e => trains_args d (as_sel devices) tr false = Err e
  end.
Proof.
  intros d devices tr R NW G U HU.
  destruct (select_opt_spec R NW HU) as (d1 & E1 & D1 & T1 & A1 & S1). destruct (derived_narrower R D1) as [R1 _].
  pose proof (select_trains_opt_tids tr R R1 T1) as Q. unfold trains_args. rewrite E1. cbn [bind].
  destruct (select_trains_opt d1 tr) as [d2|e] eqn:E2; destruct (select_trains_opt d tr) as [dt|e']; cbn [bind]; [|tauto|tauto|congruence].
  destruct (args_core R NW G U HU E1 E2) as (R2 & G2 & H). eexists. split; [reflexivity|]. rewrite <- Q.
  pose proof (trains_agree R2 G2) as TA.
  assert (X : forall items l, incl l (dc_tids d2) ->
    Forall2 (fun o t => exists r r', o = Ok (t, r) /\ train_from_id d2 t = Ok (t, r') /\
      (forall s, In s (dict_keys r) <-> In s (dict_keys r')) /\
      (forall s k, item r s k = item r' s k \/ (item r s k = Some (Many []) /\ item r' s k = None))) items l ->
    Forall (fun o => forall t r, o = Ok (t, r) -> forall s k, ~ available d2 s k -> item r s k = None) items ->
    Forall2 (fun o t => exists whole part, train_from_id d t = Ok (t, whole) /\ o = Ok (t, part) /\
                 restricted (@same_or_empty V) d devices whole part) items l).
  { intros items l Hl HF2. induction HF2 as [|o t items l (r & r' & E & E' & K1 & K2) _ IH]; intros HN; constructor.
    - destruct (H t) as (w & p & Ew & Ep & P1 & P2 & P3); [apply Hl; now left|]. rewrite E' in Ep. injection Ep as <-.
      exists w, r. split; [assumption|]. split; [assumption|]. split; [|split].
      + intros s k As. rewrite (P1 s k As). destruct (K2 s k) as [->|[-> ->]]; [now left|right; auto].
      + intros s k As. destruct (K2 s k) as [->|[Em Ee]]; [auto|]. inversion HN as [|? ? HN1 _]; subst. apply (HN1 t r eq_refl). intros Av. apply As.
        apply A1. clear - U E2 Av R1 R D1. destruct tr as [tr|]; cbn in E2; [|injection E2 as <-; assumption]. destruct U as [|U]; [discriminate|].
        eapply select_trains_available; [exact R1| |exact E2|exact Av]. eapply uniform_incl; [|exact U]. exact (proj1 (proj2 (derived_narrower R D1))).
      + intros s Hs. apply P3, K1, Hs.
    - inversion HN; subst. apply IH; [intros y Hy; apply Hl; now right|assumption]. }
  apply X; [apply incl_refl|exact TA|].
  pose proof (trains_correct R2 G2) as TC. clear - TC R2. induction TC as [|o t items l (r & E & V1 & V2) _ IH]; constructor; [|assumption].
  intros t' r' E'. rewrite E in E'. injection E' as <- <-. intros s k Hn. unfold item.
  destruct (in_dec string_dec s (dc_sources d2)) as [Hs|Hs].
  - destruct (V2 s Hs) as (sd & -> & _ & _ & Hk). destruct (reachable_inv R2) as [Hb _]. destruct (keys_for_source_ok Hb Hs) as [ks Hks].
    apply (proj1 (Hk _ Hks)). intros Y. apply Hn. split; [assumption|eauto].
  - destruct (dict_get s r) eqn:Ed; [|reflexivity]. exfalso. apply Hs, V1, dict_get_keys. eauto.
Qed.

Lemma train_args_spec : forall (d : dcoll) devices t,
  reachable d -> keeps_keys d devices -> good_collection d ->
  usable d devices -> In t (dc_tids d) ->
  exists whole part, train_from_id d t = Ok (t, whole) /\ train_from_id_args d t (as_sel devices) = Ok (t, part) /\
    restricted eq d devices whole part /\ (forall s, In s (dict_keys part) <-> asked_source d devices s).
Proof.
  intros d devices t R NW G HU Ht.
  destruct (select_opt_spec R NW HU) as (d1 & E1 & D1 & T1 & A1 & S1).
  destruct (@args_core d devices None d1 d1 R NW G (or_introl eq_refl) HU E1 eq_refl) as (R1 & G1 & H).
  destruct (H t) as (w & p & Ew & Ep & Rs); [now rewrite T1|]. exists w, p. split; [assumption|]. split.
  - unfold train_from_id_args. replace (z_in t (dc_tids d)) with true by (symmetry; now apply z_in_iff). cbn [negb].
    destruct devices as [L|]; cbn [as_sel option_map select_opt] in *; [now rewrite E1|congruence].
  - split; [assumption|]. intros s. rewrite <- S1. destruct (train_from_id_correct R1 G1 (tid_in Ep)) as (p' & Ep' & K & _).
    rewrite Ep in Ep'. injection Ep' as <-. apply K.
Qed.
End A.
