(** Lemmas on the CXI writer: pulse IDs and virtual datasets. *)
From Verif Require Import Base PyStr M_Files M_Machinery M_Reader M_Glob M_Select M_Series M_Stacking M_Components M_Cxi
  S_Reader S_Coll S_Glob S_Select S_Avail S_Series S_Stacking S_Components S_Cxi
  L_Base L_Machinery L_Reader L_GetArray L_Select L_Trains L_SelTrains L_Array2 L_Glob L_Sel2 L_Sel3 L_Hist L_Series L_Stacking L_Writer5
  L_Components L_Components2 L_Components3 L_Components4 L_Components5 L_Components6 L_Components7 L_Components8 L_Components12 L_Cxi L_Cxi2 L_Cxi3.
Set Implicit Arguments. Unset Strict Implicit.
Local Open Scope string_scope.
Local Open Scope list_scope.

Lemma image_index : forall s name, index_key false s ("image." ++ name) = index_key false s "image.data".
Proof. reflexivity. Qed.

Section C.
Context {V : Type}.
Notation faccess := (faccess V).
Notation dcoll := (dcoll V).
Context (pulse : V -> Z).
Context (d : dcoll) (name : string) (modules : option (list Z)) (min : Z) (m : mpx V).
Context (R : reachable d) (K : distinct_kinds d) (G : good_files d).
Context (HM : made d name modules min m).
Let sel := mx_train_ids m.
Let F := Z.to_nat (mx_fpt m).

Section One.
Context (s : string) (n : Z) (Hm : is_module_of d name modules s n) (k : string) (HF : module_files d s k).
Context (Hk : index_key false s k = index_key false s "image.data").
Let fs := source_files (dc_files (mx_data m)) s.

Lemma entry_file_rows : forall f t a c, In f fs -> In (t, (a, c)) (ents f s k) ->
  file_rows (fa_file f) false s k t (zslice (ds_rows (dds f s k)) a (a + c)) /\ (0 <= a)%Z /\ (0 <= c)%Z.
Proof.
  intros f t a c Hf He. destruct (fs_data HM HF Hf) as ((Hne & Hmd) & _ & Hmf & Ho).
  assert (Hn := md_nonneg Hmd). unfold nonneg_entries in Hn. rewrite Forall_forall in Hn. assert (Hn' := Hn _ He). cbn in Hn'. split; [|exact Hn'].
  destruct Hmf as (Ht & HS & g & ds & pds & Hg & Hixk & Hds & _).
  assert (Hg' := Hg). rewrite <- ix_path_inst in Hg'.
  destruct (@index_file_ix V f s (key_group k) g Hg' Hixk) as (E & (firsts & counts & R1 & R2 & R3 & R4 & R5 & R6) & HE).
  assert (Ee : ents f s k = E) by (unfold ents; rewrite R1; cbn; congruence). rewrite Ee in He.
  apply In_nth_error in He as (p & Hp). apply HE in Hp as (P1 & P2 & P3).
  destruct (@raw_position V f p t Ho Ht P1) as (raw & Hraw & Hrp & Hfirst).
  assert (Hd' : dds f s k = ds) by (unfold dds, dset, fa_dataset; rewrite ds_path_inst, Hds; reflexivity).
  exists raw, p, g, a, c, ds. rewrite Hd'. rewrite <- zslice_eq by lia. repeat (split; [assumption|]). reflexivity.
Qed.

(** The rows of a train. *)
Lemma module_rows_at : forall W (g : V -> W) t, In t sel ->
  (forall f rows, holds d f s t -> file_rows (fa_file f) false s k t rows ->
     rows_at t (module_rows m s k (fun f => map g (ds_rows (dds f s k)))) = map g rows) /\
  ((forall f, ~ holds d f s t) -> rows_at t (module_rows m s k (fun f => map g (ds_rows (dds f s k)))) = []).
Proof.
  intros W g t Ht. unfold module_rows. fold fs sel. rewrite rows_at_flat_map.
  assert (HX : forall f, In f fs -> ~ In t (fa_tids f) ->
     rows_at t (flat_map (entry_rows (map g (ds_rows (dds f s k)))) (filter (fun e : Z * (Z * Z) => z_in (fst e) sel) (ents f s k))) = []).
  { intros f Hf Hn. apply rows_at_none. intros Hi. apply in_map_iff in Hi as (e & <- & He). apply filter_In in He as [He _].
    destruct (cxi_file_facts R K HM Hm HF Hk Hf) as (_ & X2 & _). apply Hn. rewrite <- X2. now apply in_map. }
  split.
  - intros f rows Hh Hr. apply (det_holds HM Hm f Ht) in Hh as [Hf Htf].
    rewrite (@flat_map_one _ _ (@fa_tids V) _ t fs f (fs_nodup G HM s) HX Hf Htf).
    destruct (cxi_file_facts R K HM Hm HF Hk Hf) as (_ & X2 & _ & _ & X5 & _).
    assert (Hi : In t (map fst (ents f s k))) by now rewrite X2. apply in_map_iff in Hi as ([t' [a c]] & E & He). cbn in E. subst t'.
    assert (HN : NoDup (map fst (filter (fun e : Z * (Z * Z) => z_in (fst e) sel) (ents f s k)))).
    { apply NoDup_filter_map. rewrite X2. now apply StronglySorted_NoDup_lt. }
    rewrite (rows_at_one (map g (ds_rows (dds f s k))) HN (e := (t, (a, c)))); [|apply filter_In; split; [assumption|now apply z_in_iff]|reflexivity].
    destruct (entry_file_rows Hf He) as (Y1 & Y2 & Y3). unfold e_first, e_count. cbn [fst snd].
    rewrite (@file_rows_fun V (fa_file f) false s k t rows _ Hr Y1). apply zslice_map.
  - intros Hno. apply flat_map_nil. intros f Hf. apply HX; [assumption|]. intros Htf. apply (Hno f). apply (det_holds HM Hm f Ht). auto.
Qed.

Lemma frame_at : forall W (g : V -> W) t i, In t sel ->
  (forall v, frame_value d s k t i v -> nth_error (rows_at t (module_rows m s k (fun f => map g (ds_rows (dds f s k))))) i = Some (g v)) /\
  (forall w, nth_error (rows_at t (module_rows m s k (fun f => map g (ds_rows (dds f s k))))) i = Some w -> exists v, frame_value d s k t i v /\ w = g v).
Proof.
  intros W g t i Ht. destruct (module_rows_at g Ht) as [H1 H2]. split.
  - intros v (f & rows & Hh & Hr & Hv). rewrite (H1 f rows Hh Hr). now rewrite nth_error_map, Hv.
  - intros w Hw.
    destruct (existsb (fun f => z_in t (fa_tids f)) fs) eqn:E.
    + apply existsb_exists in E as (f & Hf & Htf). apply z_in_iff in Htf. assert (Hh : holds d f s t) by (apply (det_holds HM Hm f Ht); auto).
      destruct (cxi_file_facts R K HM Hm HF Hk Hf) as (_ & X2 & _).
      assert (Hi : In t (map fst (ents f s k))) by now rewrite X2. apply in_map_iff in Hi as ([t' [a c]] & E & He). cbn in E. subst t'.
      destruct (entry_file_rows Hf He) as (Y1 & _). rewrite (H1 f _ Hh Y1) in Hw. rewrite nth_error_map in Hw.
      destruct (nth_error (zslice _ _ _) i) as [v|] eqn:Ev in Hw; [|discriminate]. cbn in Hw. injection Hw as <-. exists v. split; [|reflexivity]. exists f. eexists. eauto.
    + rewrite H2 in Hw; [destruct i; discriminate|]. intros f Hh. apply (det_holds HM Hm f Ht) in Hh as [Hf Htf].
      assert (existsb (fun f => z_in t (fa_tids f)) fs = true); [|congruence]. apply existsb_exists. exists f. split; [assumption|now apply z_in_iff].
Qed.

Lemma frame_fun : forall t i v w, In t sel -> frame_value d s k t i v -> frame_value d s k t i w -> v = w.
Proof.
  intros t i v w Ht Hv Hw. destruct (frame_at (fun x => x) i Ht) as [H _]. apply H in Hv. apply H in Hw. congruence.
Qed.
Lemma frame_bound : forall t i v, In t sel -> frame_value d s k t i v -> (i < F)%nat.
Proof.
  intros t i v Ht (f & rows & Hh & Hr & Hv). assert (Hh' := Hh). apply (det_holds HM Hm f Ht) in Hh' as [Hf Htf].
  destruct (cxi_file_facts R K HM Hm HF Hk Hf) as (_ & X2 & X3 & _).
  assert (Hi : In t (map fst (ents f s k))) by now rewrite X2. apply in_map_iff in Hi as ([t' [a c]] & E & He). cbn in E. subst t'.
  destruct (entry_file_rows Hf He) as (Y1 & Y2 & Y3). rewrite (@file_rows_fun V (fa_file f) false s k t rows _ Hr Y1) in Hv.
  apply nth_error_Some_lt in Hv. unfold fixed_counts in X3. rewrite Forall_forall in X3.
  specialize (X3 (t, (a, c))). cbn in X3. destruct X3 as [Z|Z]; [apply filter_In; split; [assumption|now apply z_in_iff]| |];
    unfold zslice in Hv; rewrite firstn_length in Hv; fold F in Z; lia.
Qed.

Lemma chunk_dataset : forall c, In (ch_file c) fs -> ch_dataset s k c = Ok (dds (ch_file c) s k).
Proof.
  intros c Hc. destruct (cxi_file_facts R K HM Hm HF Hk Hc) as (_ & _ & _ & _ & _ & X6 & X7).
  unfold ch_dataset. apply str_in_iff in X6. now rewrite X6.
Qed.

Lemma chunks_exist : exists chunks, find_data_chunks (mx_data m) s k = Ok chunks.
Proof.
  unfold find_data_chunks. fold fs. destruct fs as [|f0 fs'] eqn:Efs; [cbn; eauto|]. rewrite <- Efs.
  assert (Hi : str_in s (dc_inst (mx_data m)) = true).
  { assert (Hf0 : In f0 fs) by (rewrite Efs; now left). destruct (cxi_file_facts R K HM Hm HF Hk Hf0) as (_ & _ & _ & _ & _ & Hif & _).
    apply source_files_In in Hf0 as [Hin Hs]. assert (Hsrc := det_source HM Hm Hin Hs).
    destruct (reachable_inv (mk_reach HM)) as [Hb _].
    destruct (@kind_split V (mx_data m) s Hb (det_kinds K HM) Hsrc) as [(_ & _ & X)|(_ & X & _)]; [|assumption].
    destruct (X f0 Hin Hs). contradiction. }
  rewrite Hi. assert (Q : incl fs fs) by (intros x; auto). revert Q. generalize fs at 1 3. clear Efs fs' f0 Hi.
  intros l Q. assert (E : exists l', mapM (file_chunks (dc_tids (mx_data m)) s (key_group k)) l = Ok l').
  { induction l as [|f l IH]; [cbn; eauto|]. destruct IH as (l' & IH); [intros x Hx; apply Q; now right|].
    assert (Hf : In f fs) by (apply Q; now left). destruct (cxi_file_facts R K HM Hm HF Hk Hf) as ((firsts & counts & I1 & I2 & I3 & _) & _).
    assert (Hne : fa_tids f <> []) by (destruct (fs_data HM HF Hf) as ((Hne & _) & _); exact Hne).
    cbn [mapM]. unfold file_chunks at 1. rewrite I1. cbn [bind].
    assert (Hm1 : np_isin (fa_tids f) (dc_tids (mx_data m)) <> []) by (unfold np_isin; destruct (fa_tids f); [congruence|discriminate]).
    destruct (contiguous_regions_correct Hm1) as (rs & Er & Hmax). rewrite Er. cbn [bind].
    assert (Hlt : forall a b, In (a, b) rs -> (a < List.length firsts)%nat).
    { intros a b Hab. destruct Hmax as (Q1 & Q2 & _). rewrite Forall_forall in Q2. specialize (Q2 _ Hab). cbn in Q2.
      assert (Ha : nth_error (np_isin (fa_tids f) (dc_tids (mx_data m))) a = Some true) by (apply Q1; exists a, b; split; [assumption|lia]).
      apply nth_error_Some_lt in Ha. unfold np_isin in Ha. rewrite map_length in Ha. lia. }
    assert (E2 : forall rs', incl rs' rs -> exists y, mapM (fun ft : nat * nat => let '(from, to) := ft in
            let* first := nth_res firsts from in
            Ok (mk_chunk f first (nslice (fa_tids f) from to) (nslice counts from to))) rs' = Ok y).
    { induction rs' as [|[a b] rs' IHr]; intros Hi; [cbn; eauto|]. destruct IHr as (y & Ey); [intros x Hx; apply Hi; now right|].
      cbn [mapM]. specialize (Hlt a b (Hi _ (or_introl eq_refl))). apply nth_error_Some in Hlt. assert (Hx : exists x, nth_res firsts a = Ok x) by (unfold nth_res; destruct (nth_error firsts a); [eauto|congruence]).
      destruct Hx as (x & ->). cbn [bind]. rewrite Ey. cbn [bind]. eauto. }
    destruct rs as [|r0 rs]; [cbn [bind]; rewrite IH; cbn [bind]; eauto|]. destruct (E2 (r0 :: rs) (fun x h => h)) as (y & Ey). rewrite Ey. cbn [bind]. rewrite IH. cbn [bind]. eauto. }
  destruct E as (l' & ->). cbn. eauto.
Qed.
End One.
End C.
