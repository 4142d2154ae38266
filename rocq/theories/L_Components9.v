(** Reading a module of a detector: when it works. *)
From Verif Require Import Base PyStr M_Files M_Machinery M_Reader M_Glob M_Select M_Series M_Stacking M_Components
  S_Reader S_Coll S_Glob S_Select S_Avail S_Series S_Stacking S_Components
  L_Base L_Machinery L_Reader L_GetArray L_Select L_Trains L_SelTrains L_Array2 L_Sel2 L_Hist L_Series L_Writer5
  L_Components L_Components2 L_Components3 L_Components4 L_Components5 L_Components6 L_Components7 L_Components8.
Set Implicit Arguments. Unset Strict Implicit.
Local Open Scope string_scope.
Local Open Scope list_scope.

Lemma StronglySorted_app : forall A (P : A -> A -> Prop) a b, StronglySorted P a -> StronglySorted P b -> (forall x y, In x a -> In y b -> P x y) -> StronglySorted P (a ++ b).
Proof.
  intros A P a b Ha Hb. induction Ha as [|x a Ha IH Hx]; intros H; [assumption|]. simpl. constructor; [apply IH; intros; apply H; [now right|assumption]|].
  apply Forall_app. split; [assumption|]. apply Forall_forall. intros y Hy. apply H; [now left|assumption].
Qed.
Lemma NoDup_map_inj : forall A B (h : A -> B) l x y, NoDup (map h l) -> In x l -> In y l -> h x = h y -> x = y.
Proof.
  intros A B h. induction l as [|a l IH]; simpl; intros x y HN Hx Hy E; [destruct Hx|]. inversion HN; subst.
  destruct Hx as [->|Hx], Hy as [->|Hy]; auto.
  - exfalso. apply H1. rewrite E. now apply in_map.
  - exfalso. apply H1. rewrite <- E. now apply in_map.
Qed.
Lemma contig_ordered : forall E, contig E -> nonneg_entries E -> ForallOrdPairs (fun e e' => e_first e + e_count e <= e_first e')%Z E.
Proof.
  induction E as [|e E IH]; intros Hc Hn; [constructor|]. inversion Hn; subst. constructor; [|apply IH; [eapply contig_tail; eassumption|assumption]].
  clear IH. destruct E as [|e1 E]; [constructor|].
  assert (H0 := Hc 0%nat e e1 eq_refl eq_refl). apply contig_tail in Hc.
  assert (G : forall E e1, contig (e1 :: E) -> nonneg_entries (e1 :: E) -> Forall (fun e' => e_first e1 <= e_first e')%Z (e1 :: E)).
  { clear. induction E as [|e2 E IH]; intros e1 Hc Hn; [constructor; [lia|constructor]|]. constructor; [lia|].
    assert (H0 := Hc 0%nat e1 e2 eq_refl eq_refl). apply contig_tail in Hc. inversion Hn; subst.
    specialize (IH e2 Hc H3). rewrite Forall_forall in *. intros x Hx. specialize (IH x Hx). lia. }
  specialize (G E e1 Hc H2). rewrite Forall_forall in G |- *. intros x Hx. specialize (G x Hx). lia.
Qed.
Lemma index_positions_sorted : forall D E, StronglySorted Z.lt D -> Forall (fun z => 0 <= z)%Z D ->
  ForallOrdPairs (fun e e' => e_first e + e_count e <= e_first e')%Z E -> StronglySorted Z.lt (index_positions D 0 E).
Proof.
  intros D E HS H0 H. unfold index_positions. induction H as [|e E He H IH]; simpl; [constructor|].
  apply StronglySorted_app.
  - apply (SS_map (R := Z.lt)); [intros; lia|]. now apply SS_filter_gen.
  - exact IH.
  - intros x y Hx Hy. apply in_map_iff in Hx as (i & <- & Hi). apply filter_In in Hi as [Hi1 Hi2]. apply Z.ltb_lt in Hi2.
    apply in_flat_map in Hy as (e' & He' & Hy). apply in_map_iff in Hy as (j & <- & Hj). apply filter_In in Hj as [Hj _].
    rewrite Forall_forall in *. specialize (He e' He'). specialize (H0 j Hj). lia.
Qed.

Section C.
Context {V : Type}.
Notation faccess := (faccess V).
Notation dcoll := (dcoll V).
Context (first : V -> V) (pulse : V -> Z).
Context (d : dcoll) (name : string) (modules : option (list Z)) (min : Z) (m : mpx V).
Context (R : reachable d) (K : distinct_kinds d) (G : good_files d).
Context (HM : made d name modules min m).
Context (s : string) (n : Z) (Hm : is_module_of d name modules s n) (k : string) (HF : module_files d s k).
Context (arg : pulse_arg) (ps : psel) (Hu : usable_sel arg) (Hps : check_pulse_selection arg = Ok ps).
Let fs := source_files (dc_files (mx_data m)) s.

Lemma desired_sorted : index_sorted arg -> ps_by_id ps = false -> StronglySorted Z.lt (desired (ps_val ps)).
Proof.
  intros Hi Hb. apply check_sel_inv in Hps as (v & Hv & [[-> H]|[-> _]]); [congruence|]. simpl in Hi, Hu.
  destruct v as [st sp step| |x|l]; simpl in Hv.
  - destruct (_ <? 1)%Z eqn:E1; [discriminate|]. destruct (_ || _) eqn:E2; [discriminate|]. injection Hv as <-. simpl.
    apply Z.ltb_ge in E1.
    pose proof (@py_range_sorted (match st with Some z => z | None => 0%Z end) (match sp with Some z => z | None => MAX_PULSES end) (match step with Some z => z | None => 1%Z end)) as P.
    match type of P with _ -> ?A => assert (X : A) by (apply P; lia) end.
    destruct (0 <? match step with Some z => z | None => 1 end)%Z eqn:E; [exact X|lia].
  - discriminate.
  - injection Hv as <-. simpl. repeat constructor.
  - injection Hv as <-. simpl. simpl in Hu. rewrite (map_ext_in _ (fun x => x)); [now rewrite map_id|].
    intros x Hx. rewrite Forall_forall in Hu. apply u64_id. auto.
Qed.

Theorem module_accepts : forall item,
  no_gaps (mx_train_ids m) (mx_data m) s ->
  (exists f t, In t (mx_train_ids m) /\ holds d f s t) ->
  known_shape item ->
  (forall f, In f (dc_files d) -> In s (fa_sources f) -> exists ds, dict_get (data_key false s k) (h5_data (fa_file f)) = Some ds /\ frame_shape ds = item) ->
  (forall f t pulses rows, holds d f s t -> train_frames first pulse f s k t pulses rows -> NoDup pulses) ->
  index_sorted arg ->
  exists a, get_module_pulse_data first pulse m s k ps = Ok a /\ ar_item a = item.
Proof.
  intros item Hgap (f0 & t0 & Ht0 & Hh0) Hk Hitem Hdist Hsort.
  destruct (chunks_ok HM) as (C1 & C2 & C3).
  assert (A : forall f, In f fs -> has_data f s k /\ ~ In 0%Z (ds_item (dds f s k)) /\ module_file f s k /\ opened f) by (intros f Hf; apply (@fs_data V d name modules min m HM s k HF f Hf)).
  assert (A1 : forall f, In f fs -> has_data f s k) by (intros f Hf; apply (A f Hf)).
  pose proof (desired_nonneg Hps) as HD.
  assert (Sh : forall f, In f fs -> frame_shape (dds f s k) = item).
  { intros f Hf. apply source_files_In in Hf as [Hf Hs]. destruct (mk_narrow HM) as (N1 & _).
    destruct (Hitem f (N1 f Hf) Hs) as (ds & Hds & <-). unfold dds, dset, fa_dataset. rewrite ds_path_inst, Hds. reflexivity. }
  assert (P : forall f c, In f fs -> In c (mx_chunks m) -> gapless f c /\
     (meets f s k c = true -> part_ok ps (dds f s k) (drows pulse f s k) (in_chunk f s k c))).
  { intros f c Hf Hc. destruct (A f Hf) as ([Hne Hmd] & Hz & Hmf & Ho).
    assert (Hct : forall t, In t c -> In t (mx_train_ids m)) by (intros t Ht; rewrite <- C1; apply in_concat; eauto).
    split.
    - intros t x y Ht Hx Hy Hxy. pose proof (proj1 (source_files_In _ _ _) Hf) as [H1 H2].
      exact (Hgap f t x y H1 H2 (Hct t Ht) Hx Hy Hxy).
    - intros _. unfold part_ok. rewrite (Sh f Hf). split; [assumption|]. split.
      + unfold selected_rows. 
        assert (Hents : forall e, In e (in_chunk f s k c) -> NoDup (map (@lab V) (entry_sel ps (drows pulse f s k) e))).
        { intros e He. apply filter_In in He as [He Hec]. apply z_in_iff in Hec.
          assert (Htf : In (fst e) (fa_tids f)) by (rewrite <- (ents_fst Hmd); now apply in_map).
          destruct (@train_frames_exist V first pulse f s k (fst e) Ho Hmf Htf) as (pulses & rows & Htr).
          assert (HN := Hdist f (fst e) pulses rows (proj1 (@det_holds V d name modules min m HM s n Hm f (fst e) (Hct _ Hec)) (conj Hf Htf)) Htr).
          destruct (train_entry Ho Hmf Htf Htr) as (e' & He' & Hee & -> & _).
          assert (e' = e).
          { assert (HNe : NoDup (map fst (ents f s k))) by (rewrite (ents_fst Hmd); apply StronglySorted_NoDup_lt, (md_sorted Hmd)).
            exact (NoDup_map_inj HNe He' He Hee). }
          subst e'. assert (HN' : NoDup (map (@lab V) (entry_rows (drows pulse f s k) e))).
          { unfold entry_rows. rewrite map_map. unfold lab. cbn [fst snd]. rewrite <- (map_map fst (pair (fst e))).
            apply FinFun.Injective_map_NoDup; [intros x y E; congruence|exact HN]. }
          unfold entry_sel. destruct (is_all (ps_val ps)); [exact HN'|]. destruct (ps_by_id ps) eqn:Eb; [now apply NoDup_filter_map|].
          apply NoDup_pick_map; [exact HN'| |].
          - apply SS_filter_gen. now apply desired_sorted.
          - rewrite Forall_forall in *. intros x Hx. apply filter_In in Hx as [Hx _]. auto. }
        assert (HNe : NoDup (map fst (in_chunk f s k c))).
        { unfold in_chunk. apply NoDup_filter_map. rewrite (ents_fst Hmd). apply StronglySorted_NoDup_lt, (md_sorted Hmd). }
        clear -Hents HNe. induction (in_chunk f s k c) as [|e E IH]; simpl; [constructor|]. rewrite map_app. inversion HNe; subst.
        apply NoDup_app_intro; [apply Hents; now left|apply IH; [intros; apply Hents; now right|assumption]|].
        intros x Hx Hx2. apply in_map_iff in Hx as (y & <- & Hy). apply entry_sel_label in Hy.
        apply in_map_iff in Hx2 as (y2 & E2 & Hy2). apply in_flat_map in Hy2 as (e2 & He2 & Hy2). apply entry_sel_label in Hy2.
        unfold lab in E2. apply H1. rewrite <- Hy. replace (fst y) with (fst y2) by congruence. rewrite Hy2. now apply in_map.
      + intros B1 B2. apply index_positions_sorted; [now apply desired_sorted|assumption|].
        apply ForallOrdPairs_filter. apply contig_ordered; [exact (md_contig Hmd)|exact (md_nonneg Hmd)]. }
  assert (Hne : part_list m s k <> []).
  { destruct (proj2 (@det_holds V d name modules min m HM s n Hm f0 t0 Ht0) Hh0) as [Hf Htf].
    rewrite <- C1 in Ht0. apply in_concat in Ht0 as (c & Hc & Htc). intros E.
    assert (X : In (f0, c) (part_list m s k)); [|rewrite E in X; exact X].
    apply in_flat_map. exists f0. split; [assumption|]. apply in_map, filter_In. split; [assumption|].
    destruct (A1 f0 Hf) as [_ Hmd]. rewrite <- (ents_fst Hmd) in Htf. apply in_map_iff in Htf as (e & Ee & He). unfold meets.
    assert (In e (in_chunk f0 s k c)) by (apply filter_In; split; [assumption|rewrite Ee; now apply z_in_iff]).
    destruct (in_chunk f0 s k c); [destruct H|reflexivity]. }
  assert (It : forall b, In b (map (part_arr first pulse s k ps) (part_list m s k)) -> ar_item b = item).
  { intros b Hb. apply in_map_iff in Hb as (fc & <- & Hfc). apply in_flat_map in Hfc as (f & Hf & Hfc). apply in_map_iff in Hfc as (c & <- & _).
    unfold part_arr, chunk_arr, part. cbn [ar_item fst snd]. now apply Sh. }
  assert (X : exists a, concat_trains (map (part_arr first pulse s k ps) (part_list m s k)) = Ok a /\ ar_item a = item).
  { unfold concat_trains. destruct (filter (@arr_nonempty V) _) as [|b r] eqn:Ef.
    - destruct (part_list m s k) as [|p l]; [congruence|]. simpl. eexists; split; [reflexivity|]. apply It. now left.
    - assert (Hsub : forall x, In x (b :: r) -> ar_item x = item).
      { intros x Hx. rewrite <- Ef in Hx. apply filter_In in Hx as [Hx _]. auto. }
      rewrite (proj2 (forallb_forall _ _)).
      + eexists; split; [reflexivity|]. simpl. apply Hsub. now left.
      + intros x Hx. rewrite (Hsub b (or_introl eq_refl)), (Hsub x (or_intror Hx)). unfold zlist_eqb. destruct (list_eq_dec _ _ _); [reflexivity|congruence]. }
  destruct X as (a & Ha & Hi). exists a. split; [|exact Hi].
  apply (@module_data_spec V first pulse m s k ps A1 HD C2 a). split; assumption.
Qed.
End C.
