(** get_array: when it succeeds, and the order of the labels. *)
From Verif Require Import Base PyStr M_Files M_Machinery M_Reader M_Glob M_Select S_Reader S_Coll
  L_Base L_Machinery L_Reader L_GetArray L_Select.
Set Implicit Arguments.
Unset Strict Implicit.
Local Open Scope string_scope.
Local Open Scope list_scope.

Section A.
Context {V : Type}.
Notation faccess := (faccess V).
Notation dcoll := (dcoll V).
Notation chunk := (chunk V).

(** ** Progress *)
Lemma read_chunk_ok : forall f E (c : chunk) s k ds,
  chunk_for f E c -> contig E -> nonneg_entries E -> file_ds s k f = Ok ds ->
  Forall (in_bounds (ds_rows ds)) E -> exists p, read_chunk s k c = Ok p.
Proof.
  intros f E c s k ds Hfor Hcon Hnn Hds Hb. unfold read_chunk.
  destruct (zsum (ch_counts c) =? 0)%Z eqn:Ez; [eauto|]. apply Z.eqb_neq in Ez.
  rewrite ch_dataset_file. replace (ch_file c) with f by (symmetry; apply Hfor). rewrite Hds. cbn [bind].
  unfold ds_slice. rewrite (chunk_rows_length Hfor Hcon Hnn Hb Ez), Z.eqb_refl. eauto.
Qed.

Lemma file_ds_ok : forall (d : dcoll) s k f ds,
  built d -> distinct_kinds d -> In s (dc_sources d) -> In f (dc_files d) -> In s (fa_sources f) ->
  dict_get (data_key (str_in s (dc_ctrl d)) s k) (h5_data (fa_file f)) = Some ds -> file_ds s k f = Ok ds.
Proof.
  intros d s k f ds Hb Hk Hs Hf Hsf H. unfold file_ds, ch_dataset. simpl.
  destruct (@kind_split V d s Hb Hk Hs) as [(Hc & _ & Hall)|(Hc & _ & Hall)]; rewrite Hc in H; destruct (Hall f Hf Hsf) as [H1 H2];
    apply str_in_iff in H1; apply str_in_false in H2; rewrite H1, ?H2; unfold fa_dataset.
  - rewrite ds_path_ctrl, H. reflexivity.
  - rewrite ds_path_inst, H. reflexivity.
Qed.

Lemma Forall2_In_l : forall A B (R : A -> B -> Prop) l l' x, Forall2 R l l' -> In x l -> exists y, In y l' /\ R x y.
Proof.
  intros A B R l l' x H. induction H as [|a b l l' Hab H IH]; intros Hx; [destruct Hx|].
  destruct Hx as [->|Hx]; [exists b; split; [now left|assumption]|].
  destruct (IH Hx) as (y & Hy & Hr). exists y; split; [now right|assumption].
Qed.
Lemma Forall2_In_r : forall A B (R : A -> B -> Prop) l l' y, Forall2 R l l' -> In y l' -> exists x, In x l /\ R x y.
Proof.
  intros A B R l l' y H. induction H as [|a b l l' Hab H IH]; intros Hy; [destruct Hy|].
  destruct Hy as [->|Hy]; [exists a; split; [now left|assumption]|].
  destruct (IH Hy) as (x & Hx & Hr). exists x; split; [now right|assumption].
Qed.

Lemma file_chunks_total : forall sel (f : faccess) s g E, file_ix f s g E -> fa_tids f <> [] ->
  exists chs, file_chunks sel s g f = Ok chs.
Proof.
  intros sel f s g E (fi & co & Hix & L1 & L2 & _) Hne. unfold file_chunks. rewrite Hix. simpl.
  destruct (@contiguous_regions_correct (np_isin (fa_tids f) sel)) as (rs & Hrs & Hmax).
  { unfold np_isin. destruct (fa_tids f); [congruence|discriminate]. }
  rewrite Hrs. simpl. destruct rs as [|r rs]; [eauto|].
  apply mapM_total. intros [a b] Hab. unfold nth_res.
  destruct (@regions_bound _ _ a b Hmax Hab) as [B1 B2]. unfold np_isin in B2. rewrite map_length in B2.
  destruct (nth_error fi a) eqn:E1; [simpl; eauto|]. apply nth_error_None in E1. lia.
Qed.

Lemma common_type_ok : forall (l : list (dataset V)) dt it, l <> [] ->
  (forall x, In x l -> ds_dtype x = dt /\ ds_item x = it) -> common_type l = Ok (dt, it).
Proof.
  intros l dt it Hne H. destruct l as [|x r]; [congruence|]. unfold common_type.
  destruct (H x (or_introl eq_refl)) as [<- <-].
  replace (forallb (fun y => zlist_eqb (ds_item x) (ds_item y)) r) with true.
  2: { symmetry. apply forallb_forall. intros y Hy. unfold zlist_eqb.
       destruct (list_eq_dec _ _ _) as [|n]; [reflexivity|]. exfalso; apply n.
       destruct (H y (or_intror Hy)) as [_ ->]; reflexivity. }
  replace (forallb (fun y => String.eqb (ds_dtype x) (ds_dtype y)) r) with true; [reflexivity|].
  symmetry. apply forallb_forall. intros y Hy. apply String.eqb_eq.
  destruct (H y (or_intror Hy)) as [-> _]; reflexivity.
Qed.

(** With a good index no chunk reaches beyond its dataset. *)
Lemma sorted_chunks_full : forall (d : dcoll) s k chs c ds,
  built d -> distinct_kinds d -> In s (dc_sources d) -> good_index d s k -> sorted_chunks d s k = Ok chs ->
  In c chs -> ch_dataset s k c = Ok ds -> zsum (ch_counts c) <> 0%Z ->
  Z.of_nat (List.length (ds_slice ds (ch_first c) (ch_first c + zsum (ch_counts c)))) = zsum (ch_counts c).
Proof.
  intros d s k chs c ds Hb Hk Hs Hgi Hchs Hc Hds Hz.
  destruct (@good_index_entries V d s k Hb Hk Hs Hgi) as (Ef & HE & HE2).
  assert (HB : files_hold (source_files (dc_files d) s) s k Ef)
    by (eapply good_index_hold; eauto; intros f Hf; exact (proj2 (HE2 f Hf))).
  unfold sorted_chunks in Hchs. apply bind_ok in Hchs as (chs0 & Hc0 & Hchs). injection Hchs as <-.
  unfold find_data_chunks in Hc0. apply bind_ok in Hc0 as (lch & Hlch & Hc0). injection Hc0 as <-.
  apply mapM_ok_iff in Hlch.
  apply (Permutation_in _ (Permutation_sym (sort_key_perm (@chunk_key V) (List.concat lch)))) in Hc.
  apply in_concat in Hc as (cs & Hcs & Hc). destruct (Forall2_In_r Hlch Hcs) as (f & Hf & Hfc).
  destruct (@file_chunks_spec V (dc_tids d) f s _ (Ef f) cs (HE f Hf) Hfc) as (Es & HF2 & Hcc & HC & HN).
  destruct (Forall2_In_r HF2 Hc) as (E & HEs & Hfor). rewrite Forall_forall in HC, HN.
  rewrite ch_dataset_file in Hds. replace (ch_file c) with f in Hds by (symmetry; apply Hfor).
  unfold ds_slice. eapply chunk_rows_length; eauto.
  apply Forall_forall. intros e He. pose proof (HB f ds Hf Hds) as HBf. rewrite Forall_forall in HBf. apply HBf.
  assert (X : In e (List.concat Es)) by (apply in_concat; eauto). rewrite Hcc in X. now apply filter_In in X as [X _].
Qed.

Theorem get_array_progress : forall (d : dcoll) s k,
  reachable d -> distinct_kinds d -> good_files d -> good_index d s k -> good_data d s k ->
  check_field d s k = Ok tt ->
  (forall f, In f (dc_files d) -> In s (fa_sources f) -> fa_tids f <> []) ->
  exists a, get_array d s k = Ok a.
Proof.
  intros d s k Hr Hk Hgf Hgi (dt & it & Hgd) Hcf Hne. destruct (reachable_inv Hr) as [Hb Ho].
  assert (Hs : In s (dc_sources d)).
  { unfold check_field in Hcf. destruct (str_in s (dc_sources d)) eqn:E; [now apply str_in_iff|discriminate]. }
  destruct (@good_index_entries V d s k Hb Hk Hs Hgi) as (Ef & HE & HE2).
  assert (HB : files_hold (source_files (dc_files d) s) s k Ef)
    by (eapply good_index_hold; eauto; intros f Hf; exact (proj2 (HE2 f Hf))).
  set (fs := source_files (dc_files d) s) in *.
  set (g := if str_in s (dc_inst d) then key_group k else "") in *.
  destruct (@mapM_total _ _ (file_chunks (dc_tids d) s g) fs) as [lch Hlch].
  { intros f Hf. apply file_chunks_total with (E := Ef f); [now apply HE|].
    apply source_files_In in Hf as [Hf Hsf]. auto. }
  assert (Hlch' := Hlch). apply mapM_ok_iff in Hlch'.
  assert (Hch : forall c, In c (List.concat lch) -> exists f ds p,
             In f fs /\ ch_file c = f /\ file_ds s k f = Ok ds /\ ds_dtype ds = dt /\ ds_item ds = it /\
             read_chunk s k c = Ok p).
  { intros c Hc. apply in_concat in Hc as (chs & Hchs & Hc).
    destruct (Forall2_In_r Hlch' Hchs) as (f & Hf & Hfc).
    destruct (@file_chunks_spec V (dc_tids d) f s g (Ef f) chs (HE f Hf) Hfc) as (Es & HF2 & Hcc & HC & HN).
    destruct (Forall2_In_r HF2 Hc) as (E & HEs & Hfor).
    assert (Hf' := Hf). apply source_files_In in Hf' as [Hfd Hsf].
    destruct (Hgd f Hfd Hsf) as (ds & g' & Hds & Hdt & Hit & Hg' & Hbd).
    assert (Hfds : file_ds s k f = Ok ds) by (eapply file_ds_ok; eassumption).
    destruct (@read_chunk_ok f E c s k ds) as [p Hp]; try assumption.
    - rewrite Forall_forall in HC; auto.
    - rewrite Forall_forall in HN; auto.
    - apply Forall_forall. intros e He.
      assert (In e (Ef f)).
      { assert (X : In e (List.concat Es)) by (apply in_concat; eauto).
        rewrite Hcc in X. now apply filter_In in X as [X _]. }
      destruct e as [t [a n]]. apply In_nth_error in H as [p Hp].
      destruct (HE2 f Hf) as (_ & g2 & Hg2 & Hiff). rewrite Hg' in Hg2. injection Hg2 as <-.
      apply Hiff in Hp as (P1 & P2 & P3). unfold in_bounds, e_first, e_count; simpl.
      eapply Hbd; try eassumption. eapply nth_error_Some_lt; eassumption.
    - exists f, ds, p. destruct Hfor as (Hfile & _). auto 10. }
  assert (Hne2 : List.concat lch <> []).
  { destruct fs as [|f0 fs0] eqn:Efs.
    - exfalso. unfold dc_sources in Hs. apply set_union_In in Hs. destruct Hb as (_ & B1 & B2).
      destruct Hs as [Hs|Hs]; [apply B1 in Hs|apply B2 in Hs]; destruct Hs as (f & Hf & Hsf & _).
      + assert (X : In f fs) by (apply source_files_In; split; [assumption|apply fa_sources_In; now left]).
        rewrite Efs in X. destruct X.
      + assert (X : In f fs) by (apply source_files_In; split; [assumption|apply fa_sources_In; now right]).
        rewrite Efs in X. destruct X.
    - inversion Hlch' as [|? chs ? ? Hh]; subst. simpl. intros X. apply app_eq_nil in X as [-> _].
      unfold file_chunks in Hh. apply bind_ok in Hh as ([fi co] & _ & Hh).
      apply bind_ok in Hh as (rs & _ & Hh). destruct rs as [|r rs]; [discriminate|].
      apply mapM_length in Hh. discriminate. }
  unfold get_array. rewrite Hcf. simpl.
  unfold sorted_chunks, find_data_chunks. fold g. fold fs. rewrite Hlch. simpl.
  set (chs := sort_key (@chunk_key V) (List.concat lch)).
  assert (Hin : forall c, In c chs -> In c (List.concat lch)).
  { intros c Hc. eapply Permutation_in; [apply Permutation_sym, (sort_key_perm (@chunk_key V))|exact Hc]. }
  destruct (@mapM_total _ _ (ch_dataset s k) chs) as [dss Hdss].
  { intros c Hc. destruct (Hch c (Hin c Hc)) as (f & ds & p & _ & Hf & Hds & _).
    exists ds. rewrite ch_dataset_file, Hf. exact Hds. }
  rewrite Hdss. simpl.
  rewrite (@common_type_ok dss dt it).
  - simpl. destruct (@mapM_total _ _ (read_chunk s k) chs) as [parts Hparts].
    { intros c Hc. destruct (Hch c (Hin c Hc)) as (f & ds & p & _ & _ & _ & _ & _ & Hp). eauto. }
    rewrite Hparts. simpl.
    rewrite (@flat_map_length_eq _ _ _ fst snd parts).
    + rewrite Nat.eqb_refl. eauto.
    + intros [ls rs] Hp. simpl. apply mapM_ok_iff in Hparts.
      destruct (Forall2_In_r Hparts Hp) as (c & Hc & Hrd).
      destruct (@chunks_read V (dc_tids d) s k g fs Ef lch HE HB Hlch') as (_ & _ & C3).
      * intros c' Hc'. destruct (Hch c' Hc') as (f & ds & p & _ & Hf & Hds & _).
        exists ds. rewrite ch_dataset_file, Hf. exact Hds.
      * intros c' Hc'. destruct (Hch c' Hc') as (f & ds & p & _ & _ & _ & _ & _ & Hp'). eauto.
      * eapply C3; [apply Hin; eassumption|eassumption].
  - apply mapM_length in Hdss. intros ->. simpl in Hdss.
    pose proof (Permutation_length (sort_key_perm (@chunk_key V) (List.concat lch))) as P.
    fold chs in P. rewrite <- Hdss in P. destruct (List.concat lch); [congruence|discriminate].
  - intros x Hx. apply mapM_ok_iff in Hdss. destruct (Forall2_In_r Hdss Hx) as (c & Hc & Hd).
    destruct (Hch c (Hin c Hc)) as (f & ds & p & _ & Hf & Hds & Hdt & Hit & _).
    rewrite ch_dataset_file, Hf, Hds in Hd. injection Hd as <-. auto.
Qed.

(** ** Order of the labels *)
Definition apart (c1 c2 : chunk) : Prop :=
  (forall t1 t2, In t1 (ch_tids c1) -> In t2 (ch_tids c2) -> t1 < t2)%Z \/
  (forall t1 t2, In t1 (ch_tids c1) -> In t2 (ch_tids c2) -> t2 < t1)%Z.

Lemma apart_sym : forall c1 c2, apart c1 c2 -> apart c2 c1.
Proof. intros c1 c2 [H|H]; [right|left]; intros; apply H; assumption. Qed.

Lemma FOP_perm : forall A (R : A -> A -> Prop) l l', (forall x y, R x y -> R y x) ->
  Permutation l l' -> ForallOrdPairs R l -> ForallOrdPairs R l'.
Proof.
  intros A R l l' Hsym P. induction P; intros H.
  - constructor.
  - inversion H; subst. constructor; [|auto]. eapply Permutation_Forall; eassumption.
  - inversion H; subst. inversion H3; subst. inversion H2; subst.
    constructor; [constructor; [now apply Hsym|assumption]|constructor; assumption].
  - auto.
Qed.
Lemma FOP_app : forall A (R : A -> A -> Prop) a b, ForallOrdPairs R a -> ForallOrdPairs R b ->
  (forall x y, In x a -> In y b -> R x y) -> ForallOrdPairs R (a ++ b).
Proof.
  intros A R a b Ha Hb H. induction Ha as [|x a Hx Ha IH]; simpl; [assumption|].
  constructor.
  - apply Forall_app; split; [assumption|]. apply Forall_forall. intros y Hy. apply H; [now left|assumption].
  - apply IH. intros; apply H; [now right|assumption].
Qed.

Lemma SS_concat_apart : forall (chs : list chunk),
  StronglySorted Z.lt (flat_map (@ch_tids V) chs) ->
  ForallOrdPairs apart chs /\ Forall (fun c => StronglySorted Z.lt (ch_tids c)) chs.
Proof.
  induction chs as [|c chs IH]; intros H; simpl in *; [split; constructor|].
  assert (K : forall a b : list Z, StronglySorted Z.lt (a ++ b) ->
     StronglySorted Z.lt a /\ StronglySorted Z.lt b /\ forall x y, In x a -> In y b -> (x < y)%Z).
  { clear. induction a as [|x a IH]; intros b H; simpl in *; [repeat split; [constructor|assumption|intros ? ? []]|].
    inversion H; subst. destruct (IH b H2) as (I1 & I2 & I3). apply Forall_app in H3 as [F1 F2].
    split; [constructor; assumption|]. split; [assumption|]. intros x' y [<-|Hx] Hy; [|auto].
    rewrite Forall_forall in F2; auto. }
  apply K in H as (K1 & K2 & K3). destruct (IH K2) as [I1 I2].
  split; constructor; auto. apply Forall_forall. intros c2 Hc2. left. intros t1 t2 H1 H2. apply K3; [assumption|].
  apply in_flat_map; eauto.
Qed.

Lemma sorted_filter : forall p l, StronglySorted Z.lt l -> StronglySorted Z.lt (filter p l).
Proof.
  intros p l H. induction H as [|x l H IH Hx]; simpl; [constructor|].
  destruct (p x); [constructor|]; [assumption| |assumption].
  rewrite Forall_forall in *. intros y Hy. apply filter_In in Hy as [Hy _]. auto.
Qed.

Lemma np_repeat_sorted : forall (tids counts : list Z), StronglySorted Z.lt tids ->
  StronglySorted Z.le (np_repeat tids counts).
Proof.
  unfold np_repeat; induction tids as [|t tids IH]; intros [|c counts] H; simpl; try constructor.
  inversion H; subst. apply SS_app.
  - induction (Z.to_nat c) as [|n IHn]; simpl; constructor; [assumption|].
    apply Forall_forall. intros x Hx. apply repeat_spec in Hx. lia.
  - apply IH. assumption.
  - intros x y Hx Hy. apply repeat_spec in Hx. subst. apply in_flat_map in Hy as ([t' n] & Hin & Hy).
    apply repeat_spec in Hy. simpl in Hy; subst. apply in_combine_l in Hin. rewrite Forall_forall in H3.
    specialize (H3 _ Hin). lia.
Qed.

Theorem get_array_labels_sorted : forall (d : dcoll) s k a,
  reachable d -> distinct_kinds d -> good_files d -> good_index d s k ->
  (forall f, In f (dc_files d) -> In s (fa_sources f) -> StronglySorted Z.lt (fa_tids f)) ->
  ForallOrdPairs seqfiles_apart (source_files (dc_files d) s) ->
  get_array d s k = Ok a -> StronglySorted Z.le (la_labels a).
Proof.
  intros d s k a Hr Hk Hgf Hgi Hsort Hap H. destruct (reachable_inv Hr) as [Hb Ho].
  pose proof (get_array_source _ _ _ H) as Hs.
  destruct (@good_index_entries V d s k Hb Hk Hs Hgi) as (Ef & HE & HE2).
  unfold get_array in H.
  apply bind_ok in H as ([] & _ & H). apply bind_ok in H as (chs & Hchs & H).
  apply bind_ok in H as (dss & _ & H). apply bind_ok in H as (ty & _ & H).
  apply bind_ok in H as (parts & Hparts & H).
  destruct (Nat.eqb _ _) in H; [|discriminate]. injection H as <-. simpl.
  unfold sorted_chunks in Hchs. apply bind_ok in Hchs as (chs0 & Hc0 & Hchs). injection Hchs as <-.
  unfold find_data_chunks in Hc0. apply bind_ok in Hc0 as (lch & Hlch & Hc0). injection Hc0 as <-.
  set (fs := source_files (dc_files d) s) in *.
  set (g := if str_in s (dc_inst d) then key_group k else "") in *.
  apply mapM_ok_iff in Hlch. apply mapM_ok_iff in Hparts.
  assert (Hfsort : forall f, In f fs -> StronglySorted Z.lt (fa_tids f)).
  { intros f Hf. apply source_files_In in Hf as [? ?]. auto. }
  (* chunks are pairwise apart, and sorted inside *)
  assert (K : ForallOrdPairs apart (List.concat lch) /\
              Forall (fun c => StronglySorted Z.lt (ch_tids c) /\ List.length (ch_counts c) = List.length (ch_tids c))
                     (List.concat lch)).
  { clear Hparts. clearbody fs. clear -Hlch HE Hap Hfsort. revert HE Hap Hfsort.
    induction Hlch as [|f chs fs lch Hh Hlch IH]; intros HE Hap Hfsort; simpl; [split; constructor|].
    inversion Hap; subst.
    destruct IH as [I1 I2]; [intros x Hx; apply HE; now right|assumption|intros; apply Hfsort; now right|].
    destruct (@file_chunks_spec V (dc_tids d) f s g (Ef f) chs (HE f (or_introl eq_refl)) Hh)
      as (Es & HF2 & Hcc & _ & _).
    assert (T : flat_map (@ch_tids V) chs = map fst (List.concat Es)).
    { clear -HF2. induction HF2 as [|E c Es chs Hh _ IH]; simpl; [reflexivity|].
      rewrite map_app, IH. f_equal. apply Hh. }
    assert (T2 : forall t, In t (flat_map (@ch_tids V) chs) -> In t (fa_tids f)).
    { intros t Ht. rewrite T, Hcc in Ht. destruct (HE f (or_introl eq_refl)) as (fi & co & _ & L1 & L2 & HEe & _).
      rewrite <- (@entries_fst (fa_tids f) fi co L1 L2), <- HEe.
      apply in_map_iff in Ht as (e & <- & He). apply filter_In in He as [He _]. now apply in_map. }
    assert (T3 : StronglySorted Z.lt (flat_map (@ch_tids V) chs)).
    { rewrite T, Hcc. destruct (HE f (or_introl eq_refl)) as (fi & co & _ & L1 & L2 & HEe & _).
      replace (map fst (filter (fun e => z_in (fst e) (dc_tids d)) (Ef f)))
        with (filter (fun t => z_in t (dc_tids d)) (fa_tids f)).
      - apply sorted_filter. apply Hfsort. now left.
      - rewrite HEe. rewrite <- (@entries_fst (fa_tids f) fi co L1 L2) at 1.
        generalize (entries (fa_tids f) fi co). intros l; induction l as [|e l IHl]; simpl; [reflexivity|].
        destruct (z_in (fst e) (dc_tids d)); simpl; now rewrite IHl. }
    destruct (SS_concat_apart T3) as [A1 A2]. split.
    - apply FOP_app; [assumption|assumption|]. intros c1 c2 Hc1 Hc2.
      apply in_concat in Hc2 as (chs2 & Hchs2 & Hc2). destruct (Forall2_In_r Hlch Hchs2) as (f2 & Hf2 & Hfc2).
      destruct (@file_chunks_spec V (dc_tids d) f2 s g (Ef f2) chs2 (HE f2 (or_intror Hf2)) Hfc2)
        as (Es2 & HF22 & Hcc2 & _ & _).
      assert (T2' : forall t, In t (ch_tids c2) -> In t (fa_tids f2)).
      { intros t Ht. destruct (HE f2 (or_intror Hf2)) as (fi & co & _ & L1 & L2 & HEe & _).
        rewrite <- (@entries_fst (fa_tids f2) fi co L1 L2), <- HEe.
        destruct (Forall2_In_r HF22 Hc2) as (E & HEs & (_ & Hft & _)). rewrite Hft in Ht.
        apply in_map_iff in Ht as (e & <- & He). apply in_map.
        assert (X : In e (List.concat Es2)) by (apply in_concat; eauto).
        rewrite Hcc2 in X. now apply filter_In in X as [X _]. }
      rewrite Forall_forall in H1. destruct (H1 f2 Hf2) as [Hlt|Hlt]; [left|right]; intros t1 t2 Ht1 Ht2;
        (apply Hlt; [apply T2; apply in_flat_map; eauto|auto]).
    - apply Forall_app; split; [|assumption]. rewrite Forall_forall in *. intros c Hc. split; [auto|].
      destruct (Forall2_In_r HF2 Hc) as (E & _ & (_ & E1 & E2 & _)). rewrite E1, E2, !map_length. reflexivity. }
  destruct K as [K1 K2].
  pose proof (sort_key_perm (@chunk_key V) (List.concat lch)) as HP.
  apply (FOP_perm apart_sym HP) in K1. apply (Permutation_Forall HP) in K2.
  pose proof (sort_key_sorted (@chunk_key V) (List.concat lch)) as HS.
  clear -Hparts K1 K2 HS. revert K1 K2 HS.
  induction Hparts as [|c [ls rs] cs ps Hc Hps IH]; intros K1 K2 HS; simpl; [constructor|].
  inversion K1 as [|? ? Hap1 Hap2]; subst. inversion K2 as [|? ? [S1 L1] K2']; subst. inversion HS as [|? ? Hss Hkey]; subst.
  assert (Hls : StronglySorted Z.le ls /\ incl ls (ch_tids c)).
  { destruct (@read_chunk_cases V s k c ls rs Hc) as [(_ & -> & _)|(_ & ->)].
    - split; [constructor|intros ? []].
    - rewrite expand_trainids_eq by assumption. split; [now apply np_repeat_sorted|].
      unfold np_repeat. intros x Hx. apply in_flat_map in Hx as ([t n] & Hin & Hx).
      apply repeat_spec in Hx. simpl in Hx; subst. eapply in_combine_l; eassumption. }
  destruct Hls as [Hls Hincl].
  apply SS_app; [assumption|apply IH; assumption|].
  intros x y Hx Hy. apply Hincl in Hx. apply in_flat_map in Hy as ([ls2 rs2] & Hp & Hy). simpl in Hy.
  destruct (Forall2_In_r Hps Hp) as (c2 & Hc2 & Hr2).
  assert (Hy2 : In y (ch_tids c2)).
  { destruct (@read_chunk_cases V s k c2 ls2 rs2 Hr2) as [(_ & -> & _)|(_ & ->)].
    - destruct Hy.
    - rewrite Forall_forall in K2'. destruct (K2' c2 Hc2) as [_ L2].
      rewrite expand_trainids_eq in Hy by assumption.
      unfold np_repeat in Hy. apply in_flat_map in Hy as ([t n] & Hin & Hy).
      apply repeat_spec in Hy. simpl in Hy; subst. eapply in_combine_l; eassumption. }
  rewrite Forall_forall in Hap1, Hkey. specialize (Hap1 _ Hc2). specialize (Hkey _ Hc2). simpl in Hkey.
  destruct Hap1 as [Hap|Hap]; [specialize (Hap x y Hx Hy2); lia|].
  exfalso. unfold chunk_key in Hkey. destruct (ch_tids c) as [|h1 r1]; [destruct Hx|].
  destruct (ch_tids c2) as [|h2 r2]; [destruct Hy2|].
  specialize (Hap h1 h2 (or_introl eq_refl) (or_introl eq_refl)). lia.
Qed.

Lemma FOP_source : forall (R : faccess -> faccess -> Prop) s l,
  ForallOrdPairs (fun f1 f2 => In s (fa_sources f1) -> In s (fa_sources f2) -> R f1 f2) l ->
  ForallOrdPairs R (source_files l s).
Proof.
  intros R s l H. induction H as [|f l Hf H IH]; simpl; [constructor|].
  destruct (str_in s (fa_sources f)) eqn:E; [|assumption]. constructor; [|assumption].
  apply Forall_forall. intros f' Hf'. apply source_files_In in Hf' as [Hf' Hs'].
  rewrite Forall_forall in Hf. apply Hf; try assumption. now apply str_in_iff.
Qed.

Theorem get_array_sequence_sorted : forall (d : dcoll) s k a,
  reachable d -> distinct_kinds d -> good_files d -> good_index d s k -> sequence_files d s ->
  get_array d s k = Ok a -> StronglySorted Z.le (la_labels a).
Proof.
  intros d s k a Hr Hk Hg Hi [H1 H2] Ha. eapply get_array_labels_sorted; try eassumption. now apply FOP_source.
Qed.

Lemma get_array_lengths : forall (d : dcoll) s k a,
  get_array d s k = Ok a -> List.length (la_labels a) = List.length (la_rows a).
Proof.
  intros d s k a H. unfold get_array in H.
  apply bind_ok in H as ([] & _ & H). apply bind_ok in H as (chs & _ & H).
  apply bind_ok in H as (dss & _ & H). apply bind_ok in H as (ty & _ & H).
  apply bind_ok in H as (parts & _ & H).
  destruct (Nat.eqb _ _) eqn:E in H; [|discriminate]. injection H as <-. simpl. now apply Nat.eqb_eq.
Qed.
End A.
