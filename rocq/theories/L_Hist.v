(** Conflicts, histories of selections and unions. *)
From Verif Require Import Base PyStr M_Files M_Machinery M_Reader M_Glob M_Select S_Reader S_Coll S_Glob S_Select S_Avail S_Hist
  L_Base L_Machinery L_Reader L_GetArray L_Select L_Trains L_SelTrains L_Array2 L_Glob L_Sel2 L_Sel3.
Set Implicit Arguments.
Unset Strict Implicit.
Local Open Scope string_scope.
Local Open Scope list_scope.

Lemma FOP_split : forall A (R : A -> A -> Prop) l, ForallOrdPairs R l <->
  forall a x b y c, l = a ++ x :: b ++ y :: c -> R x y.
Proof.
  intros A R l. split.
  - intros H. induction H as [|z l Hz H IH]; intros a x b y c E; [destruct a; discriminate|].
    destruct a as [|z' a]; simpl in E; injection E as -> E.
    + rewrite Forall_forall in Hz. apply Hz. rewrite E. apply in_or_app. right. now left.
    + eapply IH. exact E.
  - induction l as [|z l IH]; intros H; constructor.
    + apply Forall_forall. intros y Hy. apply in_split in Hy as (b & c & ->). apply (H [] z b y c). reflexivity.
    + apply IH. intros a x b y c ->. apply (H (z :: a) x b y c). reflexivity.
Qed.

Lemma and_iff_both : forall A B C D : Prop, (A <-> C) -> (B <-> D) -> (A /\ B <-> C /\ D).
Proof. tauto. Qed.

Section H.
Context {V : Type}.
Notation faccess := (faccess V).
Notation dcoll := (dcoll V).

(** ** Conflicts *)
Lemma filter_split : forall A (p : A -> bool) l a x b y c, filter p l = a ++ x :: b ++ y :: c ->
  exists a' b' c', l = a' ++ x :: b' ++ y :: c' /\ p x = true /\ p y = true.
Proof.
  intros A p l a x b y c E.
  assert (G : forall l a x r, filter p l = a ++ x :: r -> exists a' r', l = a' ++ x :: r' /\ p x = true /\ filter p r' = r).
  { clear. induction l as [|z l IH]; intros a x r E; simpl in E; [destruct a; discriminate|].
    destruct (p z) eqn:Ez.
    - destruct a as [|z' a]; simpl in E; injection E as -> E.
      + exists [], l. auto.
      + destruct (IH a x r E) as (a' & r' & -> & H). exists (z' :: a'), r'. auto.
    - destruct (IH a x r E) as (a' & r' & -> & H). exists (z :: a'), r'. auto. }
  destruct (G _ _ _ _ E) as (a' & r' & -> & Hx & E'). destruct (G _ _ _ _ E') as (b' & c' & -> & Hy & _).
  exists a', b', c'. auto.
Qed.
Lemma ForallOrdPairs_dec : forall l : list faccess,
  ForallOrdPairs (fun f1 f2 => forall t, In t (fa_tids f1) -> ~ In t (fa_tids f2)) l \/
  exists a f1 b f2 c, l = a ++ f1 :: b ++ f2 :: c /\ exists t, In t (fa_tids f1) /\ In t (fa_tids f2).
Proof.
  induction l as [|f l IH]; [left; constructor|].
  destruct (existsb (fun g => existsb (fun t => z_in t (fa_tids g)) (fa_tids f)) l) eqn:E.
  - right. apply existsb_exists in E as (g & Hg & E). apply existsb_exists in E as (t & Ht & E). apply z_in_iff in E.
    apply in_split in Hg as (b & c & ->). exists [], f, b, g, c. split; [reflexivity|eauto].
  - destruct IH as [IH|(a & f1 & b & f2 & c & -> & H)].
    + left. constructor; [|assumption]. apply Forall_forall. intros g Hg t Ht Hn.
      assert (existsb (fun g => existsb (fun t => z_in t (fa_tids g)) (fa_tids f)) l = true) as X; [|congruence].
      apply existsb_exists. exists g. split; [assumption|]. apply existsb_exists. exists t. split; [assumption|now apply z_in_iff].
    + right. exists (f :: a), f1, b, f2, c. auto.
Qed.
Theorem conflict_spec : forall (files : list faccess) sel tids,
  (conflicting files -> mk_collection files sel tids = Err EValueError) /\
  (~ conflicting files -> exists d, mk_collection files sel tids = Ok d).
Proof.
  intros files sel tids. destruct (check_source_conflicts files) as [[]|e] eqn:E.
  - split; [|intros _; now apply mk_collection_total].
    intros (a & f1 & b & f2 & c & s & t & -> & S1 & S2 & T1 & T2). exfalso.
    pose proof (check_conflicts_ok _ s E) as C. apply tids_conflict_spec in C as [_ C].
    apply FOP_split with (a := source_files a s) (x := f1) (b := source_files b s) (y := f2) (c := source_files c s) in C.
    + exact (C t T1 T2).
    + unfold source_files. rewrite filter_app. simpl. apply str_in_iff in S1, S2. rewrite S1, filter_app. simpl. now rewrite S2.
  - assert (e = EValueError) as ->.
    { unfold check_source_conflicts in E. destruct (existsb _ _); [now injection E as <-|discriminate]. }
    split; [intros _; unfold mk_collection; rewrite E; reflexivity|]. intros Hn. exfalso. apply Hn.
    unfold check_source_conflicts in E. destruct (existsb _ _) eqn:Ex; [|discriminate].
    apply existsb_exists in Ex as (s & _ & Ex).
    destruct (ForallOrdPairs_dec (source_files files s)) as [F|(a & f1 & b & f2 & c & Es & t & T1 & T2)].
    + assert (tids_conflict [] (source_files files s) = false) as X; [|congruence].
      apply tids_conflict_spec. split; [intros; simpl; auto|exact F].
    + apply filter_split in Es as (a' & b' & c' & -> & P1 & P2). apply str_in_iff in P1, P2.
      exists a', f1, b', f2, c', s, t. auto.
Qed.

(** ** The same data in two collections *)
Lemma available_source : forall (d : dcoll) s k, available d s k -> In s (dc_sources d).
Proof. intros d s k H. apply H. Qed.

Lemma ctrl_kind : forall (d : dcoll) s f, built d -> distinct_kinds d -> In s (dc_sources d) ->
  In f (dc_files d) -> In s (fa_sources f) -> str_in s (dc_ctrl d) = str_in s (fa_ctrl f).
Proof.
  intros d s f Hb Hk Hs Hf Hsf.
  destruct (kind_split _ Hb Hk Hs) as [(E & _ & H)|(E & _ & H)]; destruct (H f Hf Hsf) as [H1 H2]; rewrite E; symmetry.
  - now apply str_in_iff.
  - now apply str_in_false.
Qed.

Lemma item_transfer : forall (d d' : dcoll) t r r' s k,
  reachable d -> reachable d' -> good_collection d -> good_collection d' ->
  train_from_id d t = Ok (t, r) -> train_from_id d' t = Ok (t, r') ->
  available d s k -> available d' s k ->
  (forall f, holds d' f s t <-> holds d f s t) -> item r' s k = item r s k.
Proof.
  intros d d' t r r' s k R R' G G' E E' A A' Hh.
  assert (Hin : forall (x : dcoll) z, train_from_id x t = Ok (t, z) -> In t (dc_tids x)).
  { intros x z Ex. destruct (in_dec Z.eq_dec t (dc_tids x)) as [H|H]; [assumption|].
    rewrite (train_from_id_missing H) in Ex. discriminate. }
  destruct (train_from_id_correct R G (Hin _ _ E)) as (r0 & E0 & T1 & T2). rewrite E in E0. injection E0 as <-.
  destruct (train_from_id_correct R' G' (Hin _ _ E')) as (r1 & E1 & T1' & T2'). rewrite E' in E1. injection E1 as <-.
  destruct A as (As & ks & Ak & Ain). destruct A' as (As' & ks' & Ak' & Ain').
  destruct (T2 s As) as (sd & Hsd & _ & _ & V1). destruct (V1 ks Ak) as (_ & V2 & V3).
  destruct (T2' s As') as (sd' & Hsd' & _ & _ & V1'). destruct (V1' ks' Ak') as (_ & V2' & V3').
  unfold item. rewrite Hsd, Hsd'.
  destruct (dec_exists_holds d s t) as [[f Hf]|Hno].
  - assert (Hf' : holds d' f s t) by now apply Hh.
    destruct (V3 k f Ain Hf) as (rows & F & ->). destruct (V3' k f Ain' Hf') as (rows' & F' & ->). f_equal.
    destruct (reachable_inv R) as [Hb _]. destruct (reachable_inv R') as [Hb' _].
    destruct Hf as (Hf1 & Hf2 & _). destruct Hf' as (Hf1' & _ & _). destruct G as (K & _). destruct G' as (K' & _).
    rewrite (ctrl_kind Hb K As Hf1 Hf2) in F. rewrite (ctrl_kind Hb' K' As' Hf1' Hf2) in F'.
    eapply file_rows_fun; eassumption.
  - rewrite (V2 k Ain Hno). apply V2'; [assumption|]. intros f Hf. apply Hh in Hf. exact (Hno f Hf).
Qed.

(** ** Histories *)
Definition narrower (d d' : dcoll) : Prop :=
  incl (dc_files d') (dc_files d) /\ incl (dc_tids d') (dc_tids d) /\ incl (dc_sources d') (dc_sources d) /\
  forall f s t, In s (dc_sources d') -> In t (dc_tids d') -> (holds d' f s t <-> holds d f s t).

Lemma expand_dom : forall (d : dcoll) a sel, expand_selection d a = Ok sel ->
  forall s, In s (dict_keys sel) -> In s (dc_sources d).
Proof.
  intros d [l|l|] sel H s Hs; simpl in H.
  - change (foldM (dict_step d) [] l = Ok sel) in H.
    assert (G : forall acc, (forall s, In s (dict_keys acc) -> In s (dc_sources d)) -> foldM (dict_step d) acc l = Ok sel ->
       forall s, In s (dict_keys sel) -> In s (dc_sources d)).
    { clear H Hs s. induction l as [|[s0 ks] l IH]; intros acc Ha H; [simpl in H; injection H as <-; exact Ha|].
      change (bind (dict_step d acc (s0, ks)) (fun s' => foldM (dict_step d) s' l) = Ok sel) in H.
      apply bind_ok in H as (acc' & H1 & H). eapply IH; [|exact H].
      unfold dict_step in H1. cbn [fst snd] in H1. destruct (str_in s0 (dc_sources d)) eqn:E; [|discriminate]. simpl in H1.
      destruct ks as [|k0 ks]; [discriminate|]. injection H1 as <-. intros s Hs. apply dict_keys_set in Hs as [->|Hs]; [now apply str_in_iff|auto]. }
    eapply G; [|exact H|exact Hs]. intros x [].
  - apply bind_ok in H as (sels & Hsels & H). injection H as <-. apply union_selections_keys in Hs as (sel & Hsel & Hs).
    apply mapM_ok_iff in Hsels. destruct (Forall2_In_r Hsels Hsel) as ([sg kg] & _ & E). unfold select_glob in E. cbn [fst snd] in E.
    apply bind_ok in E as (sre & _ & E). apply bind_ok in E as (kre & _ & E). apply bind_ok in E as (l' & Hl & E).
    apply mapM_ok_iff in Hl.
    assert (Hm : sel = flat_map (fun o => match o with Some x => [x] | None => [] end) l').
    { destruct (flat_map _ l'); [discriminate|now injection E as <-]. }
    subst sel. unfold dict_keys in Hs. apply in_map_iff in Hs as ([x ks] & Hx & Hs). simpl in Hx. subst x.
    apply in_flat_map in Hs as (o & Ho & Hs). destruct o as [y|]; [|destruct Hs]. destruct Hs as [->|[]].
    destruct (Forall2_In_r Hl Ho) as (s' & Hs' & E'). unfold glob_source in E'.
    destruct (negb _); [discriminate|]. destruct (String.eqb kg "*"); [injection E' as <- _; exact Hs'|].
    apply bind_ok in E' as (ks' & _ & E'). destruct (filter _ ks'); [discriminate|]. injection E' as <- _. exact Hs'.
  - injection H as <-. destruct Hs.
Qed.

Lemma restrict_narrower : forall (d : dcoll) (sel : selection) d', reachable d ->
  (forall s, In s (dict_keys sel) -> In s (dict_keys (dc_sel d))) ->
  mk_collection (files_with sel (dc_files d)) (Some sel) (Some (dc_tids d)) = Ok d' -> narrower d d'.
Proof.
  intros d sel d' R Hdom Hd'. destruct (restrict_ok sel R) as (d1 & Hd1 & Hb' & Ht & Hsel & Hf & Hsrc & Hst).
  rewrite Hd' in Hd1. injection Hd1 as <-. destruct (reachable_inv R) as [Hb _].
  assert (Hi : incl (dc_files d') (dc_files d)) by (rewrite Hf; intros f H; apply filter_In in H; tauto).
  split; [exact Hi|]. split; [rewrite Ht; apply incl_refl|]. split.
  - intros s Hs. apply Hsrc in Hs as [H1 H2]. apply (dc_sources_In s Hb). auto.
  - intros f s t Hs _. unfold holds. split; [intros (H1 & H2); auto|]. intros (H1 & H2 & H3). split; [|auto].
    rewrite Hf. apply filter_In. split; [assumption|]. apply existsb_exists. exists s. split; [assumption|].
    apply str_in_iff. now apply Hsrc.
Qed.

Lemma select_narrower : forall (d : dcoll) a d', reachable d -> select d a = Ok d' -> narrower d d'.
Proof.
  intros d a d' R H. unfold select in H. apply bind_ok in H as (sel & E & H).
  eapply restrict_narrower; [exact R| |exact H]. intros s Hs. destruct (reachable_inv R) as [Hb _].
  apply (proj1 (dc_sources_In s Hb)). eapply expand_dom; eassumption.
Qed.
Lemma deselect_narrower : forall (d : dcoll) a d', reachable d -> deselect d a = Ok d' -> narrower d d'.
Proof.
  intros d a d' R H. unfold deselect in H. apply bind_ok in H as (sel & E & H). apply bind_ok in H as (l & El & H).
  eapply restrict_narrower; [exact R| |exact H]. intros s Hs. destruct (subtract_all El (sel_nodup R)) as [_ G].
  specialize (G s). apply dict_get_keys. destruct (dict_get s (dc_sel d)); [eauto|]. apply dict_get_none in G. contradiction.
Qed.
Lemma new_tids_incl : forall l tr r, new_train_ids l tr = Ok r -> incl r l.
Proof.
  assert (Hsl : forall (l : list Z) s r, py_slice l s = Ok r -> incl r l).
  { intros l s r E. destruct (@py_slice_spec Z l s) as [H0 H1]. destruct (Z.eq_dec (the_step s) 0) as [Z0|Z0].
    - rewrite (H0 Z0) in E. discriminate.
    - destruct (H1 Z0) as (r' & E' & ps & _ & _ & HF). rewrite E in E'. injection E' as <-.
      intros x Hx. destruct (Forall2_In_r HF Hx) as (p & _ & Hp). eapply nth_error_In; exact Hp. }
  intros l [a b st|s|ids|ixs|] r E; simpl in E.
  - apply bind_ok in E as (x & _ & E). apply bind_ok in E as (y & _ & E). eauto.
  - eauto.
  - destruct (zsort_set _) eqn:Ez; [discriminate|]. injection E as <-. intros x Hx. rewrite <- Ez in Hx.
    apply zsort_set_In, filter_In in Hx. apply Hx.
  - apply bind_ok in E as (r0 & H0 & E). injection E as <-. intros x Hx. apply (proj1 (zsort_In _ _)) in Hx.
    apply mapM_ok_iff in H0. destruct (Forall2_In_r H0 Hx) as (i & _ & Hi).
    apply (proj1 (@py_index_spec Z l i)) in Hi as [_ Hi]. eapply nth_error_In; exact Hi.
  - discriminate.
Qed.
Lemma trains_narrower : forall (d : dcoll) tr d', reachable d -> select_trains d tr = Ok d' -> narrower d d'.
Proof.
  intros d tr d' R H. assert (H0 := H). unfold select_trains in H. apply bind_ok in H as (tids & E & _).
  destruct (select_trains_ok R E) as (d1 & Hd1 & Ht & Hs & Hf). rewrite H0 in Hd1. injection Hd1 as <-.
  destruct (reachable_inv R) as [Hb _]. destruct (reachable_inv (reach_trains _ R H0)) as [Hb' _].
  assert (Hi : incl (dc_files d') (dc_files d)) by (rewrite Hf; intros f H; apply filter_In in H; tauto).
  split; [exact Hi|]. split; [rewrite Ht; eapply new_tids_incl; exact E|]. split.
  - intros s Hin. apply (dc_sources_In s Hb') in Hin as (H1 & f & H2 & H3). apply (dc_sources_In s Hb).
    rewrite Hs in H1. split; [assumption|]. exists f. auto.
  - intros f s t _ Hin. unfold holds. split; [intros (H1 & H2); auto|]. intros (H1 & H2 & H3). split; [|auto].
    rewrite Hf. apply filter_In. split; [assumption|]. apply existsb_exists. exists t. split; [assumption|].
    apply z_in_iff. now rewrite <- Ht.
Qed.
Lemma narrower_trans : forall d1 d2 d3, narrower d1 d2 -> narrower d2 d3 -> narrower d1 d3.
Proof.
  intros d1 d2 d3 (A1 & A2 & A3 & A4) (B1 & B2 & B3 & B4).
  split; [eapply incl_tran; eassumption|]. split; [eapply incl_tran; eassumption|]. split; [eapply incl_tran; eassumption|].
  intros f s t Hs Ht. rewrite (B4 f s t Hs Ht). apply A4; auto.
Qed.
Theorem derived_narrower : forall (d d' : dcoll), reachable d -> derived d d' -> reachable d' /\ narrower d d'.
Proof.
  intros d d' R H. induction H as [|d1 a d2 H [IH1 IH2] E|d1 a d2 H [IH1 IH2] E|d1 tr d2 H [IH1 IH2] E].
  - split; [assumption|]. split; [apply incl_refl|]. split; [apply incl_refl|]. split; [apply incl_refl|]. tauto.
  - split; [eapply reach_select; eassumption|]. eapply narrower_trans; [exact IH2|]. eapply select_narrower; eassumption.
  - split; [eapply reach_deselect; eassumption|]. eapply narrower_trans; [exact IH2|]. eapply deselect_narrower; eassumption.
  - split; [eapply reach_trains; eassumption|]. eapply narrower_trans; [exact IH2|]. eapply trains_narrower; eassumption.
Qed.

(** Good input stays good. *)
Lemma narrower_good : forall (d d' : dcoll), reachable d -> reachable d' -> narrower d d' -> good_collection d ->
  (forall s k, available d' s k -> available d s k) -> good_collection d'.
Proof.
  intros d d' R R' (N1 & N2 & N3 & N4) (K & F & C & D) Hav.
  destruct (reachable_inv R) as [Hb _]. destruct (reachable_inv R') as [Hb' _].
  assert (K' : distinct_kinds d') by (intros f f' s H1 H2; apply K; auto).
  assert (Hkind : forall s, In s (dc_sources d') -> str_in s (dc_ctrl d') = str_in s (dc_ctrl d)).
  { intros s Hs. assert (H := Hs). apply (dc_sources_In s Hb') in H as (_ & f & H1 & H2).
    rewrite (ctrl_kind Hb' K' Hs H1 H2), (ctrl_kind Hb K (N3 s Hs) (N1 f H1) H2). reflexivity. }
  split; [exact K'|]. split; [|split].
  - unfold good_files in *. rewrite Forall_forall in *. auto.
  - intros s Hs f g Hf. assert (Hss : In s (dc_sources d')) by (apply set_union_In; now left).
    apply (C s); [|auto]. apply str_in_iff. rewrite <- (Hkind s Hss). now apply str_in_iff.
  - intros s k ks Hs Hks Hk. destruct (Hav s k) as (As & ks0 & A1 & A2); [split; [assumption|eauto]|].
    destruct (D s k ks0 As A1 A2) as [D1 D2]. split.
    + intros f Hf Hsf. rewrite (Hkind s Hs). apply D1; auto.
    + destruct D2 as (dt & it & D2). exists dt, it. intros f Hf Hsf. rewrite (Hkind s Hs). apply D2; auto.
Qed.

Theorem derived_trains_same : forall (d d' : dcoll), reachable d -> good_collection d -> derived d d' ->
  (forall s k, available d' s k -> available d s k) ->
  forall t, In t (dc_tids d') -> exists r r',
    train_from_id d t = Ok (t, r) /\ train_from_id d' t = Ok (t, r') /\
    (forall s, In s (dict_keys r') <-> In s (dc_sources d')) /\
    (forall s k, available d' s k -> item r' s k = item r s k).
Proof.
  intros d d' R G H Hav t Ht. destruct (derived_narrower R H) as [R' N].
  pose proof (narrower_good R R' N G Hav) as G'. destruct N as (_ & N2 & _ & N4).
  destruct (train_from_id_correct R G (N2 t Ht)) as (r & E & _).
  destruct (train_from_id_correct R' G' Ht) as (r' & E' & T & _).
  exists r, r'. split; [assumption|]. split; [assumption|]. split; [exact T|].
  intros s k A. apply (item_transfer R R' G G' E E' (Hav _ _ A) A). intros f. apply N4; [apply A|assumption].
Qed.

Lemma good_index_narrower : forall (d d' : dcoll) s k, reachable d -> reachable d' -> narrower d d' -> distinct_kinds d ->
  In s (dc_sources d') -> good_index d s k -> good_index d' s k.
Proof.
  intros d d' s k R R' (N1 & N2 & N3 & N4) K Hs GI f Hf Hsf.
  destruct (reachable_inv R) as [Hb _]. destruct (reachable_inv R') as [Hb' _].
  assert (K' : distinct_kinds d') by (intros x y z H1 H2; apply K; auto).
  rewrite (ctrl_kind Hb' K' Hs Hf Hsf), <- (ctrl_kind Hb K (N3 s Hs) (N1 f Hf) Hsf). apply GI; auto.
Qed.
Theorem derived_array_same : forall (d d' : dcoll) s k a a', reachable d -> derived d d' ->
  distinct_kinds d -> good_files d -> good_index d s k ->
  get_array d s k = Ok a -> get_array d' s k = Ok a' ->
  (forall t, In t (dc_tids d') -> rows_labelled t (la_labels a') (la_rows a') = rows_labelled t (la_labels a) (la_rows a)) /\
  (forall t, ~ In t (dc_tids d') -> rows_labelled t (la_labels a') (la_rows a') = []).
Proof.
  intros d d' s k a a' R H K F GI E E'. destruct (derived_narrower R H) as [R' N].
  assert (Hs' : In s (dc_sources d')) by (eapply get_array_source; exact E').
  pose proof (good_index_narrower R R' N K Hs' GI) as GI'. destruct N as (N1 & N2 & N3 & N4).
  assert (K' : distinct_kinds d') by (intros x y z H1 H2; apply K; auto).
  assert (F' : good_files d') by (unfold good_files in *; rewrite Forall_forall in *; auto).
  destruct (get_array_correct R K F GI E) as [P1 P2]. destruct (get_array_correct R' K' F' GI' E') as [P1' P2'].
  destruct (reachable_inv R) as [Hb _]. destruct (reachable_inv R') as [Hb' _]. split.
  - intros t Ht. destruct (dec_exists_holds d s t) as [[f Hf]|Hno].
    + assert (Hf' : holds d' f s t) by (apply N4; auto). destruct Hf as (A & B & C). destruct Hf' as (A' & _ & _).
      eapply file_rows_fun; [apply (P1' f t A' B C Ht)|].
      rewrite (ctrl_kind Hb' K' Hs' A' B), <- (ctrl_kind Hb K (N3 s Hs') A B). apply P1; auto.
    + rewrite P2, P2'; [reflexivity| |].
      * intros (_ & f & Hf). apply (Hno f). apply N4; auto.
      * intros (_ & f & Hf). apply (Hno f). exact Hf.
  - intros t Ht. apply P2'. tauto.
Qed.

(** ** Keys only become fewer *)
Lemma uniform_incl : forall (l l' : list faccess), incl l' l -> uniform_keys l -> uniform_keys l'.
Proof. intros l l' Hi H f f' s ks ks' H1 H2. apply H; auto. Qed.
Lemma stored_uniform : forall (d : dcoll) s k, uniform_keys (dc_files d) ->
  (stored_key d s k <-> exists f ks, In f (dc_files d) /\ In s (fa_sources f) /\ fa_get_keys f s = Ok ks /\ In k ks).
Proof.
  intros d s k U. split.
  - intros (f & ks & (a & b & E & Hs & _) & Hks & Hk). exists f, ks. rewrite E. split; [apply in_or_app; right; now left|auto].
  - intros (f & ks & Hf & Hs & Hks & Hk). apply stored_key_iff.
    assert (Hin : In f (source_files (dc_files d) s)) by (apply source_files_In; auto).
    destruct (source_files (dc_files d) s) as [|g r] eqn:E; [destruct Hin|].
    assert (Hg : In g (source_files (dc_files d) s)) by (rewrite E; now left). apply source_files_In in Hg as [Hg1 Hg2].
    destruct (fa_get_keys_ok Hg2) as [ks' Hks']. exists g, r, ks'. split; [reflexivity|]. split; [assumption|].
    exact (proj1 (U f g s ks ks' Hf Hg1 Hs Hg2 Hks Hks' k) Hk).
Qed.
Lemma select_trains_available : forall (d : dcoll) tr d' s k, reachable d -> uniform_keys (dc_files d) ->
  select_trains d tr = Ok d' -> available d' s k -> available d s k.
Proof.
  intros d tr d' s k R U H A. destruct (trains_narrower R H) as (N1 & _ & N3 & _).
  destruct (reachable_inv R) as [Hb _]. destruct (reachable_inv (reach_trains _ R H)) as [Hb' _].
  apply (available_iff s k Hb') in A as [A1 A2]. apply (available_iff s k Hb). split; [auto|].
  assert (Es : dc_sel d' = dc_sel d).
  { unfold select_trains in H. apply bind_ok in H as (tids & E & H). apply mk_collection_inv in H as (_ & _ & H & _). exact H. }
  rewrite Es in A2. assert (X : stored_key d' s k -> stored_key d s k).
  { intros X. apply stored_uniform in X; [|eapply uniform_incl; eassumption]. apply stored_uniform; [assumption|].
    destruct X as (f & ks & X1 & X2). exists f, ks. auto. }
  destruct (dict_get s (dc_sel d)) as [[ks|]|]; auto.
Qed.


Lemma glob_entries : forall (d : dcoll) sg kg sel s ks, select_glob d sg kg = Ok sel -> In (s, ks) sel ->
  In s (dc_sources d) /\ ((kg = "*" /\ ks = None) \/ exists u, ks = Some u /\ forall k, In k u -> available d s k).
Proof.
  intros d sg kg sel s ks E Hs. unfold select_glob in E.
  apply bind_ok in E as (sre & _ & E). apply bind_ok in E as (kre & _ & E). apply bind_ok in E as (l' & Hl & E).
  apply mapM_ok_iff in Hl.
  assert (Hm : sel = flat_map (fun o => match o with Some x => [x] | None => [] end) l').
  { destruct (flat_map _ l'); [discriminate|now injection E as <-]. }
  subst sel. apply in_flat_map in Hs as (o & Ho & Hs). destruct o as [y|]; [|destruct Hs]. destruct Hs as [->|[]].
  destruct (Forall2_In_r Hl Ho) as (s' & Hs' & E'). unfold glob_source in E'.
  destruct (negb _); [discriminate|]. destruct (String.eqb_spec kg "*") as [->|Hne]; [injection E' as <- <-; auto|].
  apply bind_ok in E' as (ks' & Hks & E').
  set (r := if str_in s' (dc_ctrl d) then _ else _) in E'.
  assert (ks = Some (filter r ks') /\ s' = s) as [-> ->].
  { destruct (filter r ks'); [discriminate|]. now injection E' as <- <-. }
  split; [assumption|]. right. eexists; split; [reflexivity|]. intros k Hk. apply filter_In in Hk as [Hk _]. split; eauto.
Qed.
Lemma select_narrow : forall (d : dcoll) L d' s k, reachable d -> (forall p, In p L -> snd p <> "*") ->
  select d (SelGlobs L) = Ok d' -> available d' s k -> available d s k.
Proof.
  intros d L d' s k R HL H A. assert (R' := reach_select _ R H).
  destruct (reachable_inv R') as [Hb' _]. apply (available_iff s k Hb') in A as [A1 A2].
  unfold select in H. apply bind_ok in H as (sel & E & H). apply mk_collection_inv in H as (_ & _ & Es & _).
  apply (dc_sources_In s Hb') in A1 as [A1 _]. rewrite Es in A1, A2. apply dict_get_keys in A1 as [o Ho]. rewrite Ho in A2.
  simpl in E. apply bind_ok in E as (sels & Hsels & E). injection E as <-. apply mapM_ok_iff in Hsels.
  destruct o as [u|].
  - apply union_selections_some in Ho as [_ Hu]. apply Hu in A2 as (sel & ks & Hsel & Hs & Hk).
    destruct (Forall2_In_r Hsels Hsel) as (p & Hp & E). destruct (glob_entries E Hs) as [_ [[_ X]|(u' & Eu & X)]]; [discriminate|].
    injection Eu as ->. auto.
  - apply union_selections_none in Ho as (sel & Hsel & Hs). destruct (Forall2_In_r Hsels Hsel) as (p & Hp & E).
    destruct (glob_entries E Hs) as [_ [[X _]|(u' & Eu & X)]]; [|discriminate]. exfalso. exact (HL p Hp X).
Qed.
Theorem narrow_available : forall (d d' : dcoll), reachable d -> uniform_keys (dc_files d) -> derived_narrow d d' ->
  forall s k, available d' s k -> available d s k.
Proof.
  intros d d' R U H. assert (G : derived d d' /\ (forall s k, available d' s k -> available d s k)); [|apply G].
  induction H as [|d1 L d2 H [D A] HL E|d1 a d2 H [D A] E|d1 tr d2 H [D A] E].
  - split; [constructor|auto].
  - split; [eapply derived_select; eassumption|]. intros s k X. apply A.
    eapply select_narrow; [apply (derived_narrower R D)|exact HL|exact E|exact X].
  - split; [eapply derived_deselect; eassumption|]. intros s k X. apply A.
    destruct (derived_narrower R D) as [R1 _]. assert (E0 := E). unfold deselect in E. apply bind_ok in E as (desel & Ed & _).
    destruct (deselect_spec R1 Ed (expand_dom Ed)) as (d3 & E3 & _ & _ & Hav). rewrite E0 in E3. injection E3 as <-.
    now apply Hav in X.
  - split; [eapply derived_trains; eassumption|]. intros s k X. apply A.
    destruct (derived_narrower R D) as [R1 (N1 & _)]. eapply select_trains_available; [exact R1| |exact E|exact X].
    eapply uniform_incl; eassumption.
Qed.

(** ** Union *)
Lemma dedup_In : forall l seen (f : faccess), consistent_names l -> In f l -> ~ In (h5_name (fa_file f)) seen ->
  In f (dedup_files seen l).
Proof.
  induction l as [|g l IH]; intros seen f C Hf Hn; [destruct Hf|]. simpl.
  assert (C' : consistent_names l) by (intros x y H1 H2; apply C; now right).
  destruct (str_in (h5_name (fa_file g)) seen) eqn:E.
  - destruct Hf as [->|Hf]; [exfalso; apply Hn; now apply str_in_iff|auto].
  - destruct Hf as [->|Hf]; [now left|]. destruct (string_dec (h5_name (fa_file f)) (h5_name (fa_file g))) as [X|X].
    + left. apply C; [now left|now right|congruence].
    + right. apply IH; [assumption|assumption|]. intros [Y|Y]; [congruence|auto].
Qed.
Lemma dedup_nodup : forall l seen, NoDup (dedup_files seen (l : list faccess)) /\
  forall f, In f (dedup_files seen l) -> ~ In (h5_name (fa_file f)) seen.
Proof.
  induction l as [|g l IH]; intros seen; simpl; [split; [constructor|intros ? []]|].
  destruct (str_in (h5_name (fa_file g)) seen) eqn:E; [apply IH|].
  destruct (IH (h5_name (fa_file g) :: seen)) as [I1 I2]. split.
  - constructor; [|assumption]. intros H. apply I2 in H. apply H. now left.
  - intros f [<-|Hf]; [now apply str_in_false|]. apply I2 in Hf. intros H. apply Hf. now right.
Qed.
Definition all_files (ds : list dcoll) : list faccess := flat_map (@dc_files V) ds.
Lemma all_files_In : forall ds f, In f (all_files ds) <-> exists d, In d ds /\ In f (dc_files d).
Proof. intros ds f. unfold all_files. rewrite in_flat_map. reflexivity. Qed.
Lemma union_files_In : forall ds f, consistent_names (all_files ds) ->
  (In f (union_files ds) <-> exists d, In d ds /\ In f (dc_files d)).
Proof.
  intros ds f C. rewrite <- all_files_In. split; [apply dedup_files_incl|]. intros H. apply dedup_In; auto.
Qed.

Lemma conflicting_perm : forall l l' : list faccess, Permutation l l' -> conflicting l -> conflicting l'.
Proof.
  intros l l' P (a & f1 & b & f2 & c & s & t & -> & S1 & S2 & T1 & T2).
  assert (P1 : Permutation l' (f1 :: f2 :: a ++ b ++ c)).
  { apply Permutation_sym. eapply Permutation_trans; [|exact P]. apply Permutation_sym.
    eapply Permutation_trans; [apply Permutation_sym, Permutation_middle|]. constructor.
    rewrite app_assoc. eapply Permutation_trans; [apply Permutation_sym, Permutation_middle|]. constructor. now rewrite app_assoc. }
  assert (H1 : In f1 l') by (apply (Permutation_in _ (Permutation_sym P1)); now left).
  apply in_split in H1 as (x & y & ->). assert (P2 : Permutation (x ++ y) (f2 :: a ++ b ++ c)).
  { apply Permutation_cons_inv with (a := f1). eapply Permutation_trans; [apply Permutation_middle|exact P1]. }
  assert (H2 : In f2 (x ++ y)) by (apply (Permutation_in _ (Permutation_sym P2)); now left).
  apply in_app_or in H2 as [H2|H2]; apply in_split in H2 as (u & v & ->).
  - exists u, f2, v, f1, y, s, t. rewrite <- app_assoc. simpl. auto.
  - exists x, f1, u, f2, v, s, t. auto.
Qed.

(** The outcome of a union. *)
Lemma union_outcome : forall (ds : list dcoll) r, is_union ds r ->
  (conflicting (union_files ds) /\ r = Err EValueError) \/ (~ conflicting (union_files ds) /\ exists d', r = Ok d').
Proof.
  intros ds r (files & P & ->). unfold union_in_order.
  destruct (conflict_spec files (Some (union_selections (map (@dc_sel V) ds))) (Some (union_tids ds))) as [H1 H2].
  destruct (mk_collection files (Some (union_selections (map (@dc_sel V) ds))) (Some (union_tids ds))) as [d'|e] eqn:E.
  - right. split; [|eauto]. intros X. apply (conflicting_perm P) in X. apply H1 in X. discriminate.
  - left. destruct (check_source_conflicts files) as [[]|e'] eqn:Ec.
    + destruct (@mk_collection_total V files (Some (union_selections (map (@dc_sel V) ds))) (Some (union_tids ds)) Ec) as [d' X]. congruence.
    + unfold mk_collection in E. rewrite Ec in E. simpl in E. injection E as <-.
      assert (e' = EValueError) as ->.
      { unfold check_source_conflicts in Ec. destruct (existsb _ _); [now injection Ec as <-|discriminate]. }
      split; [|reflexivity]. apply (conflicting_perm (Permutation_sym P)).
      unfold check_source_conflicts in Ec. destruct (existsb _ _) eqn:Ex; [|discriminate].
      apply existsb_exists in Ex as (s & _ & Ex).
      destruct (ForallOrdPairs_dec (source_files files s)) as [F|(a & f1 & b & f2 & c & Es & t & T1 & T2)].
      * assert (tids_conflict [] (source_files files s) = false) as X; [|congruence].
        apply tids_conflict_spec. split; [intros; simpl; auto|exact F].
      * apply filter_split in Es as (a' & b' & c' & -> & P1 & P2). apply str_in_iff in P1, P2.
        exists a', f1, b', f2, c', s, t. auto.
Qed.

Lemma union_spec : forall (ds : list dcoll) d', (forall d, In d ds -> reachable d) -> consistent_names (all_files ds) ->
  is_union ds (Ok d') ->
  built d' /\
  StronglySorted Z.lt (dc_tids d') /\ (forall t, In t (dc_tids d') <-> exists d, In d ds /\ In t (dc_tids d)) /\
  (forall f, In f (dc_files d') <-> exists d, In d ds /\ In f (dc_files d)) /\
  (forall s, In s (dc_sources d') <-> (exists d, In d ds /\ In s (dict_keys (dc_sel d))) /\
     exists d f, In d ds /\ In f (dc_files d) /\ In s (fa_sources f)).
Proof.
  intros ds d' HR C (files & P & E). unfold union_in_order in E. symmetry in E.
  pose proof (mk_collection_built _ _ _ E) as Hb. apply mk_collection_inv in E as (H1 & _ & H2 & H3 & _).
  split; [assumption|]. split; [rewrite H3; apply zsort_set_sorted|]. split.
  { intros t. rewrite H3. unfold union_tids. rewrite zsort_set_In, in_flat_map. reflexivity. }
  assert (Hf : forall f, In f (dc_files d') <-> exists d, In d ds /\ In f (dc_files d)).
  { intros f. rewrite <- (union_files_In f C), H1. split; intros H; [apply (Permutation_in _ (Permutation_sym P))|apply (Permutation_in _ P)]; exact H. }
  split; [exact Hf|]. intros s. rewrite (dc_sources_In s Hb), H2, union_selections_keys.
  apply and_iff_both.
  - split.
    + intros (sel & Hs & Hin). apply in_map_iff in Hs as (d & <- & Hd). eauto.
    + intros (d & Hd & Hs). exists (dc_sel d). split; [apply in_map_iff; eauto|assumption].
  - split.
    + intros (f & Hin & Hs). apply Hf in Hin as (d & Hd & Hin). eauto 6.
    + intros (d & f & Hd & Hin & Hs). exists f. split; [apply Hf; eauto|assumption].
Qed.

End H.
