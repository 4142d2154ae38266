(** Results of select and deselect in terms of what is available. *)
From Verif Require Import Base PyStr M_Files M_Machinery M_Reader M_Glob M_Select S_Reader S_Coll S_Glob S_Select S_Avail
  L_Base L_Machinery L_Reader L_GetArray L_Select L_Trains L_SelTrains L_Array2 L_Glob L_Sel2.
Set Implicit Arguments.
Unset Strict Implicit.
Local Open Scope string_scope.
Local Open Scope list_scope.

Lemma glob_star_all : forall s, glob "*" s.
Proof.
  intros s. unfold glob. rewrite <- (app_nil_r (list_ascii_of_string s)). apply (@m_star [] _ []). constructor.
Qed.
Lemma valid_compiles : forall p, valid_pattern p -> exists ts, glob_compile p = Ok ts.
Proof. intros p H. now apply glob_compile_iff. Qed.

Section S3.
Context {V : Type}.
Notation faccess := (faccess V).
Notation dcoll := (dcoll V).

Lemma restrict_ok : forall (d : dcoll) sel, reachable d -> exists d',
  mk_collection (files_with sel (dc_files d)) (Some sel) (Some (dc_tids d)) = Ok d' /\
  built d' /\ dc_tids d' = dc_tids d /\ dc_sel d' = sel /\ dc_files d' = files_with sel (dc_files d) /\
  (forall s, In s (dc_sources d') <-> In s (dict_keys sel) /\ exists f, In f (dc_files d) /\ In s (fa_sources f)) /\
  (forall s k, In s (dict_keys sel) -> (stored_key d' s k <-> stored_key d s k)).
Proof.
  intros d sel R. destruct (reachable_inv R) as [Hb _]. assert (Hb0 := Hb). destruct Hb as (Hcf & _).
  destruct (@mk_collection_total V (files_with sel (dc_files d)) (Some sel) (Some (dc_tids d))) as [d' Hd'].
  { now apply conflicts_filter. }
  exists d'. split; [assumption|]. pose proof (mk_collection_built _ _ _ Hd') as Hb'.
  apply mk_collection_inv in Hd' as (H1 & _ & H2 & H3 & _).
  do 4 (split; [assumption|]). split.
  - intros s. rewrite (dc_sources_In s Hb'), H1, H2. split.
    + intros (Hs & f & Hf & Hsf). apply filter_In in Hf as [Hf _]. eauto.
    + intros (Hs & f & Hf & Hsf). split; [assumption|]. exists f. split; [|assumption].
      apply filter_In. split; [assumption|]. apply existsb_exists. exists s. split; [assumption|now apply str_in_iff].
  - intros s k Hs. rewrite !stored_key_iff, H1, (files_with_source _ Hs). reflexivity.
Qed.

(** ** Globs *)
Lemma glob_source_spec : forall (d : dcoll) sg kg sre kre s, built d ->
  glob_compile sg = Ok sre -> glob_compile kg = Ok kre -> In s (dc_sources d) ->
  (glob_source d sre kre kg s = Ok None /\ ~ hits_source d (sg, kg) s) \/
  (exists ks, glob_source d sre kre kg s = Ok (Some (s, ks)) /\ hits_source d (sg, kg) s /\
       if String.eqb kg "*" then ks = None
       else exists l, ks = Some l /\ forall k, In k l <-> available d s k /\ hits d (sg, kg) s k).
Proof.
  intros d sg kg sre kre s Hb Hs Hk Hin. unfold glob_source.
  pose proof (glob_compile_spec s Hs) as G.
  destruct (glob_match sre s) eqn:E; simpl.
  2:{ left. split; [reflexivity|]. intros (_ & X & _). apply G in X. discriminate. }
  assert (Gs : glob sg s) by now apply G.
  destruct (String.eqb_spec kg "*") as [->|Hne].
  { right. eexists; split; [reflexivity|]. split; [|reflexivity]. split; [assumption|]. split; [assumption|now left]. }
  destruct (@keys_for_source_ok V d s Hb Hin) as [ks Hks]. rewrite Hks. simpl.
  assert (Hr : forall k, In k (filter (if str_in s (dc_ctrl d) then ctrl_key_match kg kre else glob_match kre) ks) <->
                 available d s k /\ hits d (sg, kg) s k).
  { intros k. rewrite filter_In.
    rewrite (@key_match_spec (str_in s (dc_ctrl d)) kg kre k Hk). unfold available, hits, is_control. simpl. split.
    - intros [H1 H2]. split; [split; [assumption|eauto]|auto].
    - intros [(_ & ks' & H1 & H2) [_ H3]]. rewrite Hks in H1. injection H1 as <-. auto. }
  set (fl := filter _ ks) in *. destruct fl as [|k0 rest].
  - left. split; [reflexivity|].
    intros (_ & _ & [X|(k & X)]); [simpl in X; congruence|]. apply Hr in X. destruct X.
  - right. eexists; split; [reflexivity|]. split; [|eauto].
    split; [assumption|]. split; [assumption|]. right. exists k0. apply Hr. now left.
Qed.

Lemma select_glob_spec : forall (d : dcoll) p, built d -> valid_pair p ->
  ((forall s, ~ hits_source d p s) /\ select_glob d (fst p) (snd p) = Err EValueError) \/
  ((exists s, hits_source d p s) /\ exists sel, select_glob d (fst p) (snd p) = Ok sel /\
    (forall s, In s (dict_keys sel) <-> hits_source d p s) /\
    (forall s ks, In (s, ks) sel ->
       if String.eqb (snd p) "*" then ks = None
       else exists l, ks = Some l /\ forall k, In k l <-> available d s k /\ hits d p s k)).
Proof.
  intros d [sg kg] Hb [V1 V2]. cbn [fst snd] in *.
  destruct (valid_compiles V1) as [sre Hsre]. destruct (valid_compiles V2) as [kre Hkre].
  unfold select_glob. rewrite Hsre, Hkre. cbn [bind].
  destruct (@mapM_total _ _ (glob_source d sre kre kg) (dc_sources d)) as [l Hl].
  { intros s Hs. destruct (glob_source_spec Hb Hsre Hkre Hs) as [(H & _)|(ks & H & _)]; eauto. }
  rewrite Hl. cbn [bind]. apply mapM_ok_iff in Hl.
  set (m := flat_map (fun o => match o with Some x => [x] | None => [] end) l).
  assert (Hm : forall s ks, In (s, ks) m <-> exists s', In s' (dc_sources d) /\ glob_source d sre kre kg s' = Ok (Some (s, ks))).
  { intros s ks. unfold m. rewrite in_flat_map. split.
    - intros (o & Ho & H). destruct o as [x|]; [|destruct H]. destruct H as [->|[]].
      destruct (Forall2_In_r Hl Ho) as (s' & Hs' & E). eauto.
    - intros (s' & Hs' & E). destruct (Forall2_In_l Hl Hs') as (o & Ho & E'). rewrite E in E'. injection E' as <-.
      exists (Some (s, ks)). split; [assumption|now left]. }
  assert (Hkeys : forall s, In s (dict_keys m) <-> hits_source d (sg, kg) s).
  { intros s. unfold dict_keys. rewrite in_map_iff. split.
    - intros ([x ks] & <- & H). apply Hm in H as (s' & Hs' & E). cbn [fst].
      destruct (glob_source_spec Hb Hsre Hkre Hs') as [(H & _)|(ks' & H & Hh & _)]; rewrite E in H; [discriminate|].
      injection H as -> ->. exact Hh.
    - intros Hh. assert (Hs : In s (dc_sources d)) by apply Hh.
      destruct (glob_source_spec Hb Hsre Hkre Hs) as [(_ & H)|(ks' & H & _ & _)]; [exfalso; auto|].
      exists (s, ks'). split; [reflexivity|]. apply Hm. eauto. }
  destruct m as [|x0 m'] eqn:Em.
  - left. split; [|reflexivity]. intros s Hs. apply Hkeys in Hs. destruct Hs.
  - right. split.
    + exists (fst x0). apply Hkeys. now left.
    + eexists; split; [reflexivity|]. split; [exact Hkeys|]. intros s ks H. apply Hm in H as (s' & Hs' & E).
      destruct (glob_source_spec Hb Hsre Hkre Hs') as [(H & _)|(ks' & H & _ & H2)]; rewrite E in H; [discriminate|].
      injection H as -> ->. exact H2.
Qed.

(** The selection made by a list of pairs. *)
Definition glob_sel (d : dcoll) (L : list (string * string)) (sel : selection) : Prop :=
  NoDup (dict_keys sel) /\
  (forall s, In s (dict_keys sel) <-> exists p, In p L /\ hits_source d p s) /\
  (forall s, dict_get s sel = Some None <-> In s (dc_sources d) /\ exists p, In p L /\ snd p = "*" /\ glob (fst p) s) /\
  (forall s ks, dict_get s sel = Some (Some ks) ->
     forall k, In k ks <-> available d s k /\ exists p, In p L /\ snd p <> "*" /\ hits d p s k).

Lemma expand_globs : forall (d : dcoll) L, built d -> Forall valid_pair L ->
  ((exists p, In p L /\ forall s, ~ hits_source d p s) -> expand_selection d (SelGlobs L) = Err EValueError) /\
  ((forall p, In p L -> exists s, hits_source d p s) ->
     exists sel, expand_selection d (SelGlobs L) = Ok sel /\ glob_sel d L sel).
Proof.
  intros d L Hb HV. rewrite Forall_forall in HV. unfold expand_selection. split.
  - intros (p & Hp & Hn). rewrite (@mapM_err _ _ _ EValueError); [reflexivity| |].
    + intros q Hq. destruct (select_glob_spec Hb (HV q Hq)) as [(_ & ->)|(_ & sel & -> & _)]; eauto.
    + exists p. split; [assumption|]. destruct (select_glob_spec Hb (HV p Hp)) as [(_ & ->)|((s & Hs) & _)]; [reflexivity|].
      exfalso. exact (Hn s Hs).
  - intros Hall. destruct (@mapM_total _ _ (fun p => select_glob d (fst p) (snd p)) L) as [sels Hsels].
    { intros p Hp. destruct (select_glob_spec Hb (HV p Hp)) as [(Hn & _)|(_ & sel & -> & _)]; [|eauto].
      destruct (Hall p Hp) as [s Hs]. exfalso. exact (Hn s Hs). }
    rewrite Hsels. cbn [bind]. eexists; split; [reflexivity|]. apply mapM_ok_iff in Hsels.
    assert (Hsp : forall p sel, In p L -> select_glob d (fst p) (snd p) = Ok sel ->
      (forall s, In s (dict_keys sel) <-> hits_source d p s) /\
      (forall s ks, In (s, ks) sel ->
       if String.eqb (snd p) "*" then ks = None
       else exists l, ks = Some l /\ forall k, In k l <-> available d s k /\ hits d p s k)).
    { intros p sel Hp E. destruct (select_glob_spec Hb (HV p Hp)) as [(_ & E')|(_ & sel' & E' & H)]; rewrite E in E'; [discriminate|].
      injection E' as <-. exact H. }
    assert (Hin : forall sel s, In s (dict_keys sel) <-> exists ks : option (list string), In (s, ks) sel).
    { intros sel s. unfold dict_keys. rewrite in_map_iff. split; [intros ([x y] & <- & H); eauto|intros [ks H]; now exists (s, ks)]. }
    split; [apply union_selections_nodup|]. split; [|split].
    + intros s. rewrite union_selections_keys. split.
      * intros (sel & Hsel & Hs). destruct (Forall2_In_r Hsels Hsel) as (p & Hp & E). exists p. split; [assumption|].
        now apply (proj1 (Hsp p sel Hp E)).
      * intros (p & Hp & Hs). destruct (Forall2_In_l Hsels Hp) as (sel & Hsel & E). exists sel. split; [assumption|].
        now apply (proj1 (Hsp p sel Hp E)).
    + intros s. rewrite union_selections_none. split.
      * intros (sel & Hsel & Hs). destruct (Forall2_In_r Hsels Hsel) as (p & Hp & E). destruct (Hsp p sel Hp E) as [H1 H2].
        assert (Hh : hits_source d p s) by (apply H1, Hin; eauto). split; [apply Hh|]. exists p. split; [assumption|].
        specialize (H2 _ _ Hs). destruct (String.eqb_spec (snd p) "*") as [X|X]; [split; [exact X|apply Hh]|].
        destruct H2 as (l & H2 & _). discriminate.
      * intros (Hs & p & Hp & Hstar & Hg). destruct (Forall2_In_l Hsels Hp) as (sel & Hsel & E). exists sel. split; [assumption|].
        destruct (Hsp p sel Hp E) as [H1 H2]. assert (Hh : In s (dict_keys sel)).
        { apply H1. split; [assumption|]. split; [assumption|now left]. }
        apply Hin in Hh as [ks Hks]. specialize (H2 _ _ Hks). rewrite Hstar in H2. simpl in H2. now subst.
    + intros s ks Hks k. apply union_selections_some in Hks as [Hno Hks]. rewrite Hks. split.
      * intros (sel & ks' & Hsel & Hs & Hk). destruct (Forall2_In_r Hsels Hsel) as (p & Hp & E). destruct (Hsp p sel Hp E) as [_ H2].
        specialize (H2 _ _ Hs). destruct (String.eqb_spec (snd p) "*") as [X|X]; [discriminate|].
        destruct H2 as (l & El & H2). injection El as <-. destruct (proj1 (H2 k) Hk) as [Ha Hh]. split; [assumption|]. eauto.
      * intros (Ha & p & Hp & Hstar & Hh). destruct (Forall2_In_l Hsels Hp) as (sel & Hsel & E).
        destruct (Hsp p sel Hp E) as [H1 H2]. assert (Hs : In s (dict_keys sel)).
        { apply H1. split; [apply Ha|]. split; [apply Hh|]. right. eauto. }
        apply Hin in Hs as [ks' Hks']. assert (H2' := H2 _ _ Hks'). destruct (String.eqb_spec (snd p) "*") as [X|X]; [congruence|].
        destruct H2' as (l & -> & Hl). exists sel, l. split; [assumption|]. split; [assumption|]. apply Hl. auto.
Qed.

(** ** select with globs *)
Theorem select_globs_spec : forall (d : dcoll) L, reachable d -> Forall valid_pair L ->
  ((exists p, In p L /\ forall s, ~ hits_source d p s) -> select d (SelGlobs L) = Err EValueError) /\
  ((forall p, In p L -> exists s, hits_source d p s) -> exists d', select d (SelGlobs L) = Ok d' /\
     dc_tids d' = dc_tids d /\
     (forall s, In s (dc_sources d') <-> exists p, In p L /\ hits_source d p s) /\
     (forall s k, (exists p, In p L /\ snd p = "*" /\ glob (fst p) s) -> 
        (available d' s k <-> In s (dc_sources d) /\ stored_key d s k)) /\
     (forall s k, ~ (exists p, In p L /\ snd p = "*" /\ glob (fst p) s) ->
        (available d' s k <-> available d s k /\ exists p, In p L /\ hits d p s k))).
Proof.
  intros d L R HV. destruct (reachable_inv R) as [Hb _]. destruct (expand_globs Hb HV) as [E1 E2]. unfold select. split.
  - intros H. now rewrite (E1 H).
  - intros H. destruct (E2 H) as (sel & -> & (HN & Hkeys & Hnone & Hsome)). cbn [bind].
    destruct (restrict_ok sel R) as (d' & Hd' & Hb' & Ht & Hsel & Hf & Hsrc & Hst). exists d'. split; [assumption|]. split; [assumption|].
    assert (Hsrc' : forall s, In s (dc_sources d') <-> exists p, In p L /\ hits_source d p s).
    { intros s. rewrite Hsrc, Hkeys. split; [tauto|]. intros X. split; [exact X|]. destruct X as (p & _ & Hh & _).
      now apply (dc_sources_In s Hb). }
    split; [exact Hsrc'|]. split.
    + intros s k Hex. rewrite (available_iff s k Hb'), Hsel, Hsrc'. split.
      * intros ((p & Hp & Hh) & X). assert (Hs : In s (dc_sources d)) by apply Hh. split; [assumption|].
        assert (E : dict_get s sel = Some None) by (apply Hnone; auto). rewrite E in X. apply Hst in X; [exact X|].
        apply dict_get_keys. eauto.
      * intros (Hs & Hk). assert (E : dict_get s sel = Some None) by (apply Hnone; auto). split.
        -- destruct Hex as (p & Hp & Hstar & Hg). exists p. split; [assumption|]. split; [assumption|]. split; [assumption|now left].
        -- rewrite E. apply Hst; [|assumption]. apply dict_get_keys. eauto.
    + intros s k Hno. rewrite (available_iff s k Hb'), Hsel, Hsrc'. split.
      * intros ((p & Hp & Hh) & X). assert (In s (dict_keys sel)) as Hs by (apply Hkeys; eauto). apply dict_get_keys in Hs as [o Ho].
        rewrite Ho in X. destruct o as [ks|]; [|exfalso; apply Hno; now apply Hnone].
        apply (Hsome s ks Ho) in X as [X1 (q & Hq & _ & Hq2)]. split; [assumption|eauto].
      * intros (Ha & p & Hp & Hh). assert (Hstar : snd p <> "*") by (intros X; apply Hno; exists p; split; [assumption|]; split; [exact X|apply Hh]).
        assert (Hh' : hits_source d p s) by (split; [apply Ha|]; split; [apply Hh|]; right; eauto). split; [eauto|].
        assert (In s (dict_keys sel)) as Hs by (apply Hkeys; eauto). apply dict_get_keys in Hs as [o Ho].
        rewrite Ho. destruct o as [ks|]; [|exfalso; apply Hno; now apply Hnone]. apply (Hsome s ks Ho). split; [assumption|eauto].
Qed.

(** ** deselect *)
Lemma deselect_spec : forall (d : dcoll) a desel, reachable d -> expand_selection d a = Ok desel ->
  (forall s, In s (dict_keys desel) -> In s (dc_sources d)) ->
  exists d', deselect d a = Ok d' /\ dc_tids d' = dc_tids d /\
    (forall s, In s (dc_sources d') <-> In s (dc_sources d) /\ dict_get s desel <> Some None) /\
    (forall s k, available d' s k <-> available d s k /\ dict_get s desel <> Some None /\
       forall dk, dict_get s desel = Some (Some dk) -> ~ In k dk).
Proof.
  intros d a desel R Hexp Hdom. destruct (reachable_inv R) as [Hb _]. pose proof (sel_nodup R) as HN.
  unfold deselect. rewrite Hexp. cbn [bind].
  destruct (@mapM_total _ _ (subtract_one d desel) (dc_sel d)) as [l Hl].
  { intros [s ks] Hs. unfold subtract_one. cbn [fst snd]. destruct (dict_get s desel) as [[dk|]|] eqn:E; eauto.
    destruct ks as [ks|]; [cbn [bind]; eauto|].
    destruct (@keys_for_source_ok V d s Hb) as [ks' ->]; [|cbn [bind]; eauto]. apply Hdom. apply dict_get_keys. eauto. }
  rewrite Hl. cbn [bind]. destruct (subtract_all Hl HN) as [D G]. set (sel := List.concat l) in *.
  destruct (restrict_ok sel R) as (d' & Hd' & Hb' & Ht & Hsel & Hf & Hsrc & Hst). exists d'. split; [assumption|]. split; [assumption|].
  assert (Hcase : forall s, In s (dc_sources d) ->
    match dict_get s desel with
    | None => dict_get s sel = dict_get s (dc_sel d) /\ In s (dict_keys sel)
    | Some None => dict_get s sel = None
    | Some (Some dk) => exists ks, keys_for_source d s = Ok ks /\ dict_get s sel = Some (Some (set_minus ks dk))
    end).
  { intros s Hs. apply (dc_sources_In s Hb) in Hs as (Hs & _). apply dict_get_keys in Hs as [o Ho]. specialize (G s). rewrite Ho in G.
    destruct G as (r & Hr & Gr). unfold subtract_one in Hr. cbn [fst snd] in Hr.
    destruct (dict_get s desel) as [[dk|]|] eqn:E.
    - apply bind_ok in Hr as (ks & Hks & Hr). injection Hr as <-. exists ks. split.
      + unfold keys_for_source. rewrite Ho. destruct o; [exact Hks|]. unfold keys_for_source in Hks. rewrite Ho in Hks. exact Hks.
      + rewrite Gr. simpl. now rewrite String.eqb_refl.
    - injection Hr as <-. exact Gr.
    - injection Hr as <-. simpl in Gr. rewrite String.eqb_refl in Gr. split; [rewrite Gr; now rewrite Ho|].
      apply dict_get_keys. eauto. }
  assert (Hnot : forall s, dict_get s sel <> None -> In s (dict_keys (dc_sel d))).
  { intros s H. apply dict_get_keys. specialize (G s). destruct (dict_get s (dc_sel d)); [eauto|congruence]. }
  assert (Hsrc' : forall s, In s (dc_sources d') <-> In s (dc_sources d) /\ dict_get s desel <> Some None).
  { intros s. rewrite Hsrc. split.
    - intros (Hs & Hex). assert (Hin : In s (dc_sources d)).
      { apply (dc_sources_In s Hb). split; [|exact Hex]. apply Hnot. apply dict_get_keys in Hs as [o ->]. discriminate. }
      split; [assumption|]. intros E. specialize (Hcase s Hin). rewrite E in Hcase. apply dict_get_none in Hcase. auto.
    - intros (Hin & Hne). specialize (Hcase s Hin). split; [|now apply (dc_sources_In s Hb)].
      destruct (dict_get s desel) as [[dk|]|]; [|congruence|apply Hcase].
      destruct Hcase as (ks & _ & E). apply dict_get_keys. eauto. }
  split; [exact Hsrc'|]. intros s k. rewrite (available_iff s k Hb'), Hsrc', Hsel. split.
  - intros ((Hin & Hne) & X). specialize (Hcase s Hin). destruct (dict_get s desel) as [[dk|]|] eqn:E.
    + destruct Hcase as (ks & Hks & E'). rewrite E' in X. apply set_minus_In in X as [X1 X2].
      split; [split; [assumption|eauto]|]. split; [discriminate|]. intros dk' Ed. injection Ed as <-. exact X2.
    + congruence.
    + destruct Hcase as [E' Hk]. rewrite E' in X. split; [|split; [discriminate|intros dk Hdk; discriminate]].
      apply (available_iff s k Hb). split; [assumption|].
      destruct (dict_get s (dc_sel d)) as [[ks|]|]; [exact X| |]; now apply Hst in X.
  - intros (Ha & Hne & Hdk). assert (Hin : In s (dc_sources d)) by apply Ha. split; [auto|]. specialize (Hcase s Hin).
    destruct (dict_get s desel) as [[dk|]|] eqn:E.
    + destruct Hcase as (ks & Hks & ->). apply set_minus_In. destruct Ha as (_ & ks' & Hks' & Hk). rewrite Hks in Hks'. injection Hks' as <-.
      split; [assumption|]. exact (Hdk dk eq_refl).
    + congruence.
    + destruct Hcase as [-> Hk]. apply (available_iff s k Hb) in Ha as [_ Ha].
      destruct (dict_get s (dc_sel d)) as [[ks|]|]; [exact Ha| |]; now apply Hst.
Qed.

Theorem deselect_globs_spec : forall (d : dcoll) L, reachable d -> Forall valid_pair L ->
  ((exists p, In p L /\ forall s, ~ hits_source d p s) -> deselect d (SelGlobs L) = Err EValueError) /\
  ((forall p, In p L -> exists s, hits_source d p s) -> exists d', deselect d (SelGlobs L) = Ok d' /\
     dc_tids d' = dc_tids d /\
     (forall s, In s (dc_sources d') <-> In s (dc_sources d) /\ ~ (exists p, In p L /\ snd p = "*" /\ glob (fst p) s)) /\
     (forall s k, available d' s k <-> available d s k /\ ~ (exists p, In p L /\ hits d p s k))).
Proof.
  intros d L R HV. destruct (reachable_inv R) as [Hb _]. destruct (expand_globs Hb HV) as [E1 E2]. split.
  - intros H. unfold deselect. now rewrite (E1 H).
  - intros H. destruct (E2 H) as (sel & Hexp & (HN & Hkeys & Hnone & Hsome)).
    destruct (deselect_spec R Hexp) as (d' & Hd' & Ht & Hsrc & Hav).
    { intros s Hs. apply Hkeys in Hs as (p & _ & Hh & _). exact Hh. }
    exists d'. split; [assumption|]. split; [assumption|]. split.
    + intros s. rewrite Hsrc, Hnone. tauto.
    + intros s k. rewrite Hav, Hnone. split.
      * intros (Ha & Hn & Hdk). split; [assumption|]. intros (p & Hp & Hh).
        destruct (string_dec (snd p) "*") as [X|X].
        { apply Hn. split; [apply Ha|]. exists p. split; [assumption|]. split; [assumption|apply Hh]. }
        assert (Hk : In s (dict_keys sel)).
        { apply Hkeys. exists p. split; [assumption|]. split; [apply Ha|]. split; [apply Hh|]. right. eauto. }
        apply dict_get_keys in Hk as [[dk|] Ho].
        -- apply (Hdk dk Ho). apply (Hsome s dk Ho). split; [assumption|eauto].
        -- apply Hn. now apply Hnone.
      * intros (Ha & Hn). split; [assumption|]. split.
        -- intros (Hs & p & Hp & Hstar & Hg). apply Hn. exists p. split; [assumption|]. split; [assumption|].
           left. rewrite Hstar. apply glob_star_all.
        -- intros dk Ho Hk. apply (Hsome s dk Ho) in Hk as (_ & p & Hp & _ & Hh). apply Hn. eauto.
Qed.

(** ** Dictionaries *)
Lemma set_of_list : forall ks acc k, In k (fold_left (fun a k => set_add k a) ks acc) <-> In k acc \/ In k ks.
Proof.
  induction ks as [|x ks IH]; intros acc k; simpl; [tauto|]. rewrite IH, set_add_In. intuition.
Qed.
Definition dict_step (d : dcoll) (acc : selection) (p : string * list string) : res selection :=
  if negb (str_in (fst p) (dc_sources d)) then Err ESourceNameError
  else match snd p with
       | [] => Err ETypeError
       | ks => Ok (dict_set (fst p) (Some (fold_left (fun a k => set_add k a) ks [])) acc)
       end.
Lemma expand_dict : forall (d : dcoll) l, (forall s ks, In (s, ks) l -> ks <> []) -> NoDup (map fst l) ->
  ((exists s, In s (map fst l) /\ ~ In s (dc_sources d)) -> expand_selection d (SelDict l) = Err ESourceNameError) /\
  ((forall s, In s (map fst l) -> In s (dc_sources d)) -> exists sel, expand_selection d (SelDict l) = Ok sel /\
     (forall s, In s (dict_keys sel) <-> In s (map fst l)) /\
     (forall s o, dict_get s sel = Some o -> exists ks u, In (s, ks) l /\ o = Some u /\ forall k, In k u <-> In k ks)).
Proof.
  intros d l Hne HN. change (expand_selection d (SelDict l)) with (foldM (dict_step d) [] l).
  assert (G : forall acc,
    ((exists s, In s (map fst l) /\ ~ In s (dc_sources d)) -> foldM (dict_step d) acc l = Err ESourceNameError) /\
    ((forall s, In s (map fst l) -> In s (dc_sources d)) -> exists sel, foldM (dict_step d) acc l = Ok sel /\
     (forall s, In s (dict_keys sel) <-> In s (dict_keys acc) \/ In s (map fst l)) /\
     (forall s o, dict_get s sel = Some o -> (~ In s (map fst l) /\ dict_get s acc = Some o) \/
        exists ks u, In (s, ks) l /\ o = Some u /\ forall k, In k u <-> In k ks))).
  { induction l as [|[s0 ks0] l IH]; intros acc.
    - split; [intros (s & [] & _)|]. intros _. exists acc. split; [reflexivity|]. split; [simpl; tauto|]. intros s o H. left. auto.
    - inversion HN as [|? ? N1 N2]; subst. assert (Hne' : forall s ks, In (s, ks) l -> ks <> []) by (intros; eapply Hne; right; eassumption).
      change (foldM (dict_step d) acc ((s0, ks0) :: l)) with (bind (dict_step d acc (s0, ks0)) (fun s' => foldM (dict_step d) s' l)).
      unfold dict_step at 1 3. cbn [fst snd]. destruct (str_in s0 (dc_sources d)) eqn:E; cbn [negb].
      + destruct ks0 as [|k0 ks0]; [exfalso; exact (Hne s0 [] (or_introl eq_refl) eq_refl)|]. set (u := fold_left _ (k0 :: ks0) []).
        cbn [bind]. destruct (IH Hne' N2 (dict_set s0 (Some u) acc)) as [I1 I2]. split.
        * intros (s & Hs & Hn). apply I1. destruct Hs as [<-|Hs]; [exfalso; apply Hn; now apply str_in_iff|eauto].
        * intros Hall. destruct I2 as (sel & -> & J1 & J2); [intros s Hs; apply Hall; now right|].
          exists sel. split; [reflexivity|]. split.
          -- intros s. rewrite J1, dict_keys_set. simpl. intuition.
          -- intros s o Ho. destruct (J2 s o Ho) as [[Hnl Hg]|(ks & u' & H1 & H2)]; [|right; exists ks, u'; split; [now right|assumption]].
             rewrite dict_get_set in Hg. destruct (String.eqb_spec s s0) as [->|Hd].
             ++ injection Hg as <-. right. exists (k0 :: ks0), u. split; [now left|]. split; [reflexivity|].
                intros k. unfold u. rewrite set_of_list. simpl. tauto.
             ++ left. split; [|assumption]. intros [X|X]; [simpl in X; congruence|auto].
      + cbn [bind]. split; [reflexivity|]. intros Hall. exfalso. apply str_in_false in E. apply E, Hall. now left. }
  destruct (G []) as [G1 G2]. split; [exact G1|]. intros Hall. destruct (G2 Hall) as (sel & E & H1 & H2).
  exists sel. split; [assumption|]. split; [intros s; rewrite H1; simpl; tauto|]. intros s o Ho.
  destruct (H2 s o Ho) as [[_ X]|X]; [discriminate|exact X].
Qed.
Lemma dict_unique : forall A B (l : list (A * B)) s x y, NoDup (map fst l) -> In (s, x) l -> In (s, y) l -> x = y.
Proof.
  induction l as [|[a b] l IH]; intros s x y HN H1 H2; [destruct H1|]. inversion HN as [|? ? N1 N2]; subst.
  assert (X : forall z, In (a, z) l -> False) by (intros z Hz; apply N1; apply in_map_iff; now exists (a, z)).
  destruct H1 as [H1|H1], H2 as [H2|H2].
  - congruence.
  - injection H1 as <- <-. exfalso; eauto.
  - injection H2 as <- <-. exfalso; eauto.
  - eauto.
Qed.
Theorem select_dict_spec : forall (d : dcoll) l, reachable d -> (forall s ks, In (s, ks) l -> ks <> []) -> NoDup (map fst l) ->
  ((exists s, In s (map fst l) /\ ~ In s (dc_sources d)) -> select d (SelDict l) = Err ESourceNameError) /\
  ((forall s, In s (map fst l) -> In s (dc_sources d)) -> exists d', select d (SelDict l) = Ok d' /\
     dc_tids d' = dc_tids d /\ (forall s, In s (dc_sources d') <-> In s (map fst l)) /\
     (forall s k, available d' s k <-> exists ks, In (s, ks) l /\ In k ks)).
Proof.
  intros d l R Hne HN. destruct (reachable_inv R) as [Hb _]. destruct (@expand_dict d l Hne HN) as [E1 E2]. unfold select. split.
  - intros H. now rewrite (E1 H).
  - intros H. destruct (E2 H) as (sel & -> & Hk & Hg). cbn [bind].
    destruct (restrict_ok sel R) as (d' & Hd' & Hb' & Ht & Hsel & Hf & Hsrc & Hst). exists d'. split; [assumption|]. split; [assumption|].
    assert (Hsrc' : forall s, In s (dc_sources d') <-> In s (map fst l)).
    { intros s. rewrite Hsrc, Hk. split; [tauto|]. intros Hs. split; [assumption|]. apply (dc_sources_In s Hb). auto. }
    split; [exact Hsrc'|]. intros s k. rewrite (available_iff s k Hb'), Hsrc', Hsel. split.
    + intros (Hs & X). apply Hk in Hs. apply dict_get_keys in Hs as [o Ho]. rewrite Ho in X.
      destruct (Hg s o Ho) as (ks & u & H1 & -> & H2). exists ks. split; [assumption|]. now apply H2.
    + intros (ks & Hin & Hkk). assert (Hs : In s (map fst l)) by (apply in_map_iff; now exists (s, ks)). split; [assumption|].
      apply Hk in Hs. apply dict_get_keys in Hs as [o Ho]. rewrite Ho. destruct (Hg s o Ho) as (ks' & u & H1 & -> & H2).
      apply H2. now rewrite (dict_unique HN H1 Hin).
Qed.
Theorem deselect_dict_spec : forall (d : dcoll) l, reachable d -> (forall s ks, In (s, ks) l -> ks <> []) -> NoDup (map fst l) ->
  ((exists s, In s (map fst l) /\ ~ In s (dc_sources d)) -> deselect d (SelDict l) = Err ESourceNameError) /\
  ((forall s, In s (map fst l) -> In s (dc_sources d)) -> exists d', deselect d (SelDict l) = Ok d' /\
     dc_tids d' = dc_tids d /\ (forall s, In s (dc_sources d') <-> In s (dc_sources d)) /\
     (forall s k, available d' s k <-> available d s k /\ ~ exists ks, In (s, ks) l /\ In k ks)).
Proof.
  intros d l R Hne HN. destruct (@expand_dict d l Hne HN) as [E1 E2]. split.
  - intros H. unfold deselect. now rewrite (E1 H).
  - intros H. destruct (E2 H) as (sel & Hexp & Hk & Hg).
    destruct (deselect_spec R Hexp) as (d' & Hd' & Ht & Hsrc & Hav).
    { intros s Hs. apply H. now apply Hk. }
    assert (Hnn : forall s, dict_get s sel <> Some None).
    { intros s E. destruct (Hg s None E) as (ks & u & _ & X & _). discriminate. }
    exists d'. split; [assumption|]. split; [assumption|]. split.
    + intros s. rewrite Hsrc. split; [tauto|]. intros Hs. split; [assumption|apply Hnn].
    + intros s k. rewrite Hav. split.
      * intros (Ha & _ & Hdk). split; [assumption|]. intros (ks & Hin & Hkk).
        assert (Hs : In s (map fst l)) by (apply in_map_iff; now exists (s, ks)).
        apply Hk in Hs. apply dict_get_keys in Hs as [o Ho]. destruct (Hg s o Ho) as (ks' & u & H1 & -> & H2).
        apply (Hdk u Ho). apply H2. now rewrite (dict_unique HN H1 Hin).
      * intros (Ha & Hn). split; [assumption|]. split; [apply Hnn|]. intros dk Ho Hkk. apply Hn.
        destruct (Hg s _ Ho) as (ks' & u & H1 & Eu & H2). injection Eu as <-. exists ks'. split; [assumption|now apply H2].
Qed.
End S3.
