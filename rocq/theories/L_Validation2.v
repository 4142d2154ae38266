(** Lemmas: collections of validated files. *)
From Verif Require Import Base PyStr M_Files M_Machinery M_Reader M_Glob M_Select M_Series S_Reader S_Coll S_Avail S_Series
  M_Validation S_Validation L_Base L_Machinery L_Reader L_GetArray L_Select L_Array2 L_Trains L_Series L_Validation.
Set Implicit Arguments.
Unset Strict Implicit.
Local Open Scope string_scope.
Local Open Scope list_scope.

Section C.
Context {V : Type}.
Notation faccess := (faccess V).
Notation dcoll := (dcoll V).

Lemma passed_nonempty : forall (fa : faccess) s ks k, file_checks fa = Ok [] -> In s (fa_inst fa) ->
  fa_get_keys fa s = Ok ks -> In k ks -> fa_tids fa <> [].
Proof.
  intros fa s ks k H Hs Hks Hk. apply file_checked in H as [H _]. specialize (H s Hs).
  apply source_checked in H as (ks' & Hks' & H). rewrite Hks in Hks'. injection Hks' as <-. destruct (H k Hk) as [_ G].
  apply group_checked in G as (F & C & _ & L1 & L2 & Hc). apply contiguous_checked in Hc as [H0 _]; [|congruence].
  intros E. rewrite E in L1. destruct F; [discriminate|discriminate].
Qed.

Definition passed (d : dcoll) : Prop :=
  forall f, In f (dc_files d) -> file_sane (fa_file f) /\ file_checks f = Ok [].

Lemma inst_in_file : forall (d : dcoll) f s, reachable d -> distinct_kinds d -> In s (dc_inst d) -> In f (dc_files d) ->
  In s (fa_sources f) -> In s (fa_inst f) /\ str_in s (dc_ctrl d) = false.
Proof.
  intros d f s Hr Hk Hs Hf Hsf. destruct (reachable_inv Hr) as [Hb Ho].
  assert (Hss : In s (dc_sources d)) by (unfold dc_sources; apply set_union_In; auto).
  destruct (kind_split _ Hb Hk Hss) as [(_ & X & _)|(X & _ & Y)].
  - apply str_in_false in X. contradiction.
  - split; [exact (proj1 (Y f Hf Hsf))|exact X].
Qed.

Lemma passed_field : forall (d : dcoll) s k, reachable d -> distinct_kinds d -> passed d -> In s (dc_inst d) ->
  field_everywhere d s k ->
  good_files d /\ good_index d s k /\ good_data d s k /\ index_from_zero d s k /\
  (forall f, In f (dc_files d) -> In s (fa_sources f) -> fa_tids f <> []).
Proof.
  intros d s k Hr Hk Hp Hs (Hf & dt & it & Hty). destruct (reachable_inv Hr) as [_ Ho].
  rewrite Forall_forall in Ho.
  assert (U : forall f, In f (dc_files d) -> usable_file f).
  { intros f Hin. destruct (Hp f Hin) as [S1 S2]. exact (passed_usable (Ho f Hin) S1 S2). }
  assert (G : forall f, In f (dc_files d) -> In s (fa_sources f) -> str_in s (dc_ctrl d) = false /\
    exists g ds, dict_get (index_key false s k) (h5_index (fa_file f)) = Some g /\
                 dict_get (data_key false s k) (h5_data (fa_file f)) = Some ds /\
                 usable_index g (List.length (fa_tids f)) (List.length (ds_rows ds)) /\ index_typed g /\
                 (Z.of_nat (List.length (ds_rows ds)) < 2 ^ 53)%Z).
  { intros f Hin Hsf. destruct (inst_in_file Hr Hk Hs Hin Hsf) as [Hi Hc]. split; [exact Hc|].
    destruct (Hf f Hin Hsf) as (ks & Hks & Hkk). destruct (U f Hin) as [_ Hu].
    destruct (Hu s ks k Hi Hks Hkk) as (g & ds & E1 & E2 & E3). exists g, ds. do 3 (split; [assumption|]).
    destruct (Hp f Hin) as [((_ & T2 & T3) & _) _]. split; [exact (T2 _ _ E1)|exact (T3 _ _ E2)]. }
  split; [|split; [|split; [|split]]].
  - apply Forall_forall. intros f Hin. destruct (U f Hin) as [(raw & Hraw & tids & pad & E & Hso & Hpos) _].
    exists tids, pad. split; [congruence|]. split; [now apply StronglySorted_NoDup_lt|assumption].
  - intros f Hin Hsf. destruct (G f Hin Hsf) as (Hc & g & ds & E1 & E2 & E3 & E4 & E5). rewrite Hc. exists g. split; [assumption|].
    split; [eapply usable_readable; eassumption|]. intros ds' Hd'. rewrite E2 in Hd'. injection Hd' as <-.
    intros p a c Hpn Ha Hcc. destruct E3 as (U1 & _). destruct (U1 p Hpn) as (a' & c' & A1 & A2 & _ & _ & B).
    rewrite A1 in Ha. rewrite A2 in Hcc. injection Ha as <-. injection Hcc as <-. exact B.
  - exists dt, it. intros f Hin Hsf. destruct (G f Hin Hsf) as (Hc & g & ds & E1 & E2 & E3 & E4 & E5). rewrite Hc.
    exists ds, g. destruct (Hty f ds Hin Hsf E2) as [Y1 Y2]. do 4 (split; [assumption|]).
    intros p a c Hpn Ha Hcc. destruct E3 as (U1 & _). destruct (U1 p Hpn) as (a' & c' & A1 & A2 & _ & _ & B).
    rewrite A1 in Ha. rewrite A2 in Hcc. injection Ha as <-. injection Hcc as <-. exact B.
  - intros f g a Hin Hsf Hne Hg Ha. destruct (G f Hin Hsf) as (Hc & g' & ds & E1 & E2 & (_ & U2 & _) & _). rewrite Hc in Hg.
    rewrite E1 in Hg. injection Hg as <-. apply U2; [|assumption]. destruct (fa_tids f); [congruence|simpl; lia].
  - intros f Hin Hsf. destruct (inst_in_file Hr Hk Hs Hin Hsf) as [Hi Hc]. destruct (Hf f Hin Hsf) as (ks & Hks & Hkk).
    destruct (Hp f Hin) as [_ Hch]. exact (passed_nonempty Hch Hi Hks Hkk).
Qed.

Lemma passed_collection : forall (d : dcoll), reachable d -> distinct_kinds d -> passed d -> good_control d ->
  (forall s k, In s (dc_inst d) -> available d s k -> field_everywhere d s k) -> good_collection d.
Proof.
  intros d Hr Hk Hp Hc Hfe. split; [exact Hk|]. split; [|split].
  - apply Forall_forall. intros f Hin. destruct (Hp f Hin) as [S1 S2]. destruct (reachable_inv Hr) as [_ Ho].
    rewrite Forall_forall in Ho. destruct (passed_usable (Ho f Hin) S1 S2) as [(raw & Hraw & tids & pad & E & Hso & Hpos) _].
    exists tids, pad. split; [congruence|]. split; [now apply StronglySorted_NoDup_lt|assumption].
  - intros s Hs. exact (proj1 (Hc s Hs)).
  - intros s k ks Hs Hks Hkk. unfold dc_sources in Hs. apply set_union_In in Hs as [Hs|Hs].
    + exact (proj2 (Hc s Hs) k ks Hks Hkk).
    + assert (Av : available d s k).
      { split; [unfold dc_sources; apply set_union_In; auto|eauto]. }
      destruct (passed_field Hr Hk Hp Hs (Hfe s k Hs Av)) as (_ & H2 & H3 & _). split; [|exact H3].
      intros f Hin Hsf. destruct (H2 f Hin Hsf) as (g & E & Hok & _). exists g. split; [exact E|exact (proj1 Hok)].
Qed.

Lemma same_set_spec : forall a b, same_set a b = true <-> (forall s, In s a <-> In s b).
Proof.
  intros a b. unfold same_set. rewrite andb_true_iff, !forallb_forall. split.
  - intros [H1 H2] s. split; intros H; [apply H1 in H|apply H2 in H]; now apply str_in_iff.
  - intros H. split; intros s Hs; apply str_in_iff; now apply H.
Qed.
Lemma zlist_eqb_iff : forall a b, zlist_eqb a b = true <-> a = b.
Proof. intros a b. unfold zlist_eqb. destruct (list_eq_dec Z.eq_dec a b); split; congruence. Qed.

Lemma map_entry_checked : forall cache (fa : faccess), check_map_entry cache fa = Ok [] <->
  exists tids ctrl inst, cache (h5_name (fa_file fa)) = Some (tids, ctrl, inst) /\
    tids = fa_tids fa /\ (forall s, In s ctrl <-> In s (fa_ctrl fa)) /\ (forall s, In s inst <-> In s (fa_inst fa)).
Proof.
  intros cache fa. unfold check_map_entry. destruct (cache (h5_name (fa_file fa))) as [[[tids ctrl] inst]|].
  2:{ split; [discriminate|]. intros (? & ? & ? & H & _). discriminate. }
  split.
  - intros H. exists tids, ctrl, inst. split; [reflexivity|].
    destruct (same_set ctrl (fa_ctrl fa)) eqn:E1; [|discriminate]. destruct (same_set inst (fa_inst fa)) eqn:E2; [|discriminate].
    destruct (zlist_eqb tids (fa_tids fa)) eqn:E3; [|discriminate]. apply zlist_eqb_iff in E3.
    split; [assumption|]. split; now apply same_set_spec.
  - intros (t & c & i & H & -> & H1 & H2). injection H as -> <- <-.
    rewrite (proj2 (same_set_spec ctrl (fa_ctrl fa)) H1), (proj2 (same_set_spec inst (fa_inst fa)) H2), (proj2 (zlist_eqb_iff (fa_tids fa) (fa_tids fa)) eq_refl).
    reflexivity.
Qed.

Lemma usable_In : forall (paths : list (string * res faccess)) f, In f (usable (map snd paths)) <-> exists p, In (p, Ok f) paths.
Proof.
  intros paths f. unfold usable. rewrite in_flat_map. split.
  - intros (r & Hr & Hf). apply in_map_iff in Hr as ([p r'] & E & Hp). simpl in E. subst r'. destruct r as [g|]; [|destruct Hf].
    destruct Hf as [<-|[]]. eauto.
  - intros (p & Hp). exists (Ok f). split; [|now left]. apply in_map_iff. exists (p, Ok f). auto.
Qed.

Theorem run_checked : forall (paths : list (string * res faccess)) cache,
  run_checks paths cache = Ok [] <->
  (exists d, mk_collection (usable (map snd paths)) None None = Ok d) /\ paths <> [] /\
  (forall p r, In (p, r) paths -> exists f, r = Ok f /\ file_checks f = Ok [] /\ check_map_entry cache f = Ok []).
Proof.
  intros paths cache. unfold run_checks. set (files := usable (map snd paths)).
  assert (FC : forall f : faccess, (let* l := file_checks f in Ok (map RFileProblem l)) = Ok [] <-> file_checks f = Ok []).
  { intros f. destruct (file_checks f) as [[|x l]|]; simpl; split; congruence. }
  split.
  - intros H. destruct (mk_collection files None None) as [d|]; [|discriminate]. cbn [bind] in H.
    destruct (mapM (fun f : faccess => let* l := file_checks f in Ok (map RFileProblem l)) files) as [p1|] eqn:E1; [|discriminate]. cbn [bind] in H.
    destruct (mapM (check_map_entry cache) files) as [p2|] eqn:E2; [|discriminate]. cbn [bind] in H. injection H as H.
    apply app_eq_nil in H as [H1 H]. apply app_eq_nil in H as [H2 H]. apply app_eq_nil in H as [H3 H4].
    split; [eauto|]. split.
    { intros ->. discriminate. }
    intros p r Hp. destruct r as [f|e].
    + exists f. split; [reflexivity|]. assert (Hf : In f files) by (apply usable_In; eauto). split.
      * apply FC. apply (proj1 (mapM_concat_nil (fun f : faccess => let* l := file_checks f in Ok (map RFileProblem l)) files)); [eauto|assumption].
      * apply (proj1 (mapM_concat_nil (check_map_entry cache) files)); [eauto|assumption].
    + exfalso. assert (X : In (RNotOpened p e) []); [|destruct X]. rewrite <- H1. apply in_flat_map. exists (p, Err e). split; [assumption|now left].
  - intros ((d & ->) & Hne & H). cbn [bind].
    destruct (proj2 (mapM_concat_nil (fun f : faccess => let* l := file_checks f in Ok (map RFileProblem l)) files)) as (p1 & -> & E1).
    { intros f Hf. apply usable_In in Hf as (p & Hp). destruct (H p (Ok f) Hp) as (f' & E & Hc & _). injection E as <-. now apply FC. }
    cbn [bind]. destruct (proj2 (mapM_concat_nil (check_map_entry cache) files)) as (p2 & -> & E2).
    { intros f Hf. apply usable_In in Hf as (p & Hp). destruct (H p (Ok f) Hp) as (f' & E & _ & Hc). injection E as <-. assumption. }
    cbn [bind]. rewrite E1, E2. rewrite !app_nil_r. f_equal.
    assert (X : flat_map (fun p : string * res faccess => match snd p with Ok _ => [] | Err e => [RNotOpened (fst p) e] end) paths = []).
    { apply flat_map_nil. intros [p r] Hp. destruct (H p r Hp) as (f & -> & _). reflexivity. }
    rewrite X. simpl. destruct files as [|f r] eqn:Ef; [|reflexivity]. exfalso. destruct paths as [|[p r] ps]; [congruence|].
    destruct (H p r (or_introl eq_refl)) as (f & -> & _). assert (Hx : In f files) by (apply usable_In; exists p; now left).
    rewrite Ef in Hx. destruct Hx.
Qed.

Theorem run_without_cache : forall (paths : list (string * res faccess)) cache p f,
  In (p, Ok f) paths -> cache (h5_name (fa_file f)) = None -> exists e, run_checks paths cache = Err e.
Proof.
  intros paths cache p f Hp Hn. unfold run_checks. set (files := usable (map snd paths)).
  assert (Hf : In f files) by (apply usable_In; eauto).
  destruct (mk_collection files None None) as [d|e]; [|exists e; reflexivity]. cbn [bind].
  destruct (mapM (fun f : faccess => let* l := file_checks f in Ok (map RFileProblem l)) files) as [p1|e]; [|exists e; reflexivity]. cbn [bind].
  destruct (mapM (check_map_entry cache) files) as [p2|e] eqn:E; [|exists e; reflexivity]. exfalso.
  clear - E Hf Hn. revert p2 E. induction files as [|g l IH]; intros p2 E; [destruct Hf|]. simpl in E.
  destruct Hf as [->|Hf].
  - unfold check_map_entry in E. rewrite Hn in E. discriminate.
  - destruct (check_map_entry cache g); [|discriminate]. simpl in E. destruct (mapM (check_map_entry cache) l) as [q|] eqn:Eq; [|discriminate]. exact (IH Hf q eq_refl).
Qed.
End C.

(** ** Boolean checks of the hypotheses, for the examples *)
From Verif Require Import L_Check.
Section B.
Context {V : Type}.
Definition typedb (g : ix_group) : bool :=
  forallb u64b (ix_first g) &&
  match ix_more g with
  | IxCount c => forallb u64b c
  | IxLastStatus l s => forallb u64b l && forallb (fun x => (x =? 0)%Z || (x =? 1)%Z) s
  end.
Definition saneb (g : ix_group) : bool :=
  match ix_more g with
  | IxCount c => forallb (fun x => (0 <=? x)%Z && (x <? 2 ^ 63)%Z) c
  | IxLastStatus l s =>
      forallb (fun p => match entry_count g p with Some c => (0 <=? c)%Z && (c <? 2 ^ 63)%Z | None => true end) (seq 0 (List.length l))
  end.
Definition file_typedb (f : h5file V) : bool :=
  match h5_trainid f with Some raw => forallb u64b raw | None => true end &&
  forallb (fun p => typedb (snd p)) (h5_index f) &&
  forallb (fun p => (Z.of_nat (List.length (ds_rows (snd p))) <? 2 ^ 53)%Z) (h5_data f).
Definition file_saneb (f : h5file V) : bool := file_typedb f && forallb (fun p => saneb (snd p)) (h5_index f).
Lemma typedb_ok : forall g, typedb g = true -> index_typed g.
Proof.
  intros g H. apply andb_true_iff in H as [H1 H2]. split; [eapply forallb_Forall; [|exact H1]; apply u64b_ok|].
  destruct (ix_more g); [eapply forallb_Forall; [|exact H2]; apply u64b_ok|]. apply andb_true_iff in H2 as [H2 H3].
  split; [eapply forallb_Forall; [|exact H2]; apply u64b_ok|]. eapply forallb_Forall; [|exact H3].
  intros x Hx. apply orb_true_iff in Hx as [Hx|Hx]; apply Z.eqb_eq in Hx; auto.
Qed.
Lemma saneb_ok : forall g, saneb g = true -> counts_sane g.
Proof.
  intros g H p c Hc. unfold saneb in H. unfold entry_count in *. destruct (ix_more g) as [cs|l s].
  - rewrite forallb_forall in H. specialize (H c (nth_error_In _ _ Hc)). apply andb_true_iff in H as [H1 H2].
    apply Z.leb_le in H1. apply Z.ltb_lt in H2. lia.
  - rewrite forallb_forall in H. destruct (nth_error l p) as [x|] eqn:E; [|discriminate].
    specialize (H p). rewrite in_seq in H. pose proof (nth_error_Some_lt _ _ E). specialize (H ltac:(lia)). rewrite E, Hc in H.
    apply andb_true_iff in H as [H1 H2]. apply Z.leb_le in H1. apply Z.ltb_lt in H2. lia.
Qed.
Lemma file_typedb_ok : forall f, file_typedb f = true -> file_typed f.
Proof.
  intros f H. apply andb_true_iff in H as [H H3]. apply andb_true_iff in H as [H1 H2]. rewrite forallb_forall in H2, H3. split; [|split].
  - intros raw Hr. rewrite Hr in H1. eapply forallb_Forall; [|exact H1]. apply u64b_ok.
  - intros s g Hg. apply typedb_ok. exact (H2 _ (dict_get_In _ _ Hg)).
  - intros s ds Hd. apply Z.ltb_lt. exact (H3 _ (dict_get_In _ _ Hd)).
Qed.
Lemma file_saneb_ok : forall f, file_saneb f = true -> file_sane f.
Proof.
  intros f H. apply andb_true_iff in H as [H1 H2]. split; [now apply file_typedb_ok|].
  intros s g Hg. apply saneb_ok. rewrite forallb_forall in H2. exact (H2 _ (dict_get_In _ _ Hg)).
Qed.
Definition is_nil {A} (r : res (list A)) : bool := match r with Ok [] => true | _ => false end.
Definition passedb (d : dcoll V) : bool := forallb (fun f => file_saneb (fa_file f) && is_nil (file_checks f)) (dc_files d).
Lemma passedb_ok : forall d, passedb d = true -> forall f, In f (dc_files d) -> file_sane (fa_file f) /\ file_checks f = Ok [].
Proof.
  intros d H f Hf. unfold passedb in H. rewrite forallb_forall in H. specialize (H f Hf). apply andb_true_iff in H as [H1 H2].
  split; [now apply file_saneb_ok|]. destruct (file_checks f) as [[|]|]; try discriminate. reflexivity.
Qed.
End B.
