(** Lemmas on the CXI writer: the files of a module. *)
From Verif Require Import Base PyStr M_Files M_Machinery M_Reader M_Glob M_Select M_Series M_Stacking M_Components M_Cxi
  S_Reader S_Coll S_Glob S_Select S_Avail S_Series S_Stacking S_Components
  L_Base L_Machinery L_Reader L_GetArray L_Select L_Trains L_SelTrains L_Array2 L_Glob L_Sel2 L_Sel3 L_Hist L_Series L_Stacking L_Writer5
  L_Components L_Components2 L_Components3 L_Components4 L_Components5 L_Components6 L_Components7 L_Components8 L_Components12 L_Cxi L_Cxi2.
Set Implicit Arguments. Unset Strict Implicit.
Local Open Scope string_scope.
Local Open Scope list_scope.

Lemma rows_at_flat_map : forall A W t (g : A -> list (Z * W)) l, rows_at t (flat_map g l) = flat_map (fun x => rows_at t (g x)) l.
Proof. induction l as [|x l IH]; [reflexivity|]. cbn [flat_map]. now rewrite rows_at_app, IH. Qed.
Lemma rows_at_none : forall W (rows : list W) t E, ~ In t (map fst E) -> rows_at t (flat_map (entry_rows rows) E) = [].
Proof. intros. unfold rows_at. now rewrite filter_entries_none. Qed.
Lemma rows_at_one : forall W (rows : list W) t E e, NoDup (map fst E) -> In e E -> fst e = t ->
  rows_at t (flat_map (entry_rows rows) E) = zslice rows (e_first e) (e_first e + e_count e).
Proof. intros W rows t E e H1 H2 H3. unfold rows_at. rewrite (@filter_entries_one _ rows t E e H1 H2 H3). unfold entry_rows. rewrite map_map. cbn [snd]. apply map_id. Qed.

Section C.
Context {V : Type}.
Notation faccess := (faccess V).
Notation dcoll := (dcoll V).
Context (d : dcoll) (name : string) (modules : option (list Z)) (min : Z) (m : mpx V).
Context (R : reachable d) (K : distinct_kinds d) (G : good_files d).
Context (HM : made d name modules min m).
Context (s : string) (n : Z) (Hm : is_module_of d name modules s n) (k : string) (HF : module_files d s k).
Context (Hk : index_key false s k = index_key false s "image.data").
Let fs := source_files (dc_files (mx_data m)) s.
Let sel := mx_train_ids m.
Let F := Z.to_nat (mx_fpt m).

Lemma fpt_pos : (0 < F)%nat /\ Z.of_nat F = mx_fpt m.
Proof. destruct (mk_unif HM) as (H & _). unfold F. lia. Qed.

Lemma cxi_file_facts : forall f, In f fs ->
  file_ix f s (key_group k) (ents f s k) /\ map fst (ents f s k) = fa_tids f /\
  fixed_counts F (filter (fun e => z_in (fst e) sel) (ents f s k)) /\
  Forall (fun e => e_first e + e_count e <= Z.of_nat (List.length (ds_rows (dds f s k))))%Z (ents f s k) /\
  StronglySorted Z.lt (fa_tids f) /\ In s (fa_inst f) /\ fa_dataset f (ds_path "INSTRUMENT" s k) = Ok (dds f s k).
Proof.
  intros f Hf. destruct (fs_data HM HF Hf) as ((Hne & [M1 M2 M3 M4 M5 M6 M7 M8]) & Hz & Hmf & Ho).
  assert (Hf' := Hf). apply source_files_In in Hf' as [Hin Hs]. destruct (mk_narrow HM) as (N1 & N2 & _).
  assert (Hix : file_ix f s (key_group k) (ents f s k)) by (destruct M2 as (fi & co & A & B & C & D); exists fi, co; repeat split; assumption).
  assert (Hfst : map fst (ents f s k) = fa_tids f) by (destruct M2 as (fi & co & A & B & C & D); rewrite D; now apply entries_fst).
  split; [assumption|]. split; [assumption|]. split; [|split; [|split; [assumption|split; [|assumption]]]].
  - apply Forall_forall. intros [t [a c]] He. apply filter_In in He as [He Hsel]. apply z_in_iff in Hsel. cbn [fst] in Hsel.
    destruct (mk_unif HM) as (U1 & _ & U3). destruct fpt_pos as [_ HFe]. rewrite HFe. unfold e_count. cbn [snd].
    apply (U3 s n t c Hm); [now apply N2|]. exists f. split.
    { split; [auto|]. split; [assumption|]. rewrite <- Hfst. apply (in_map fst) in He. exact He. }
    destruct Hmf as (Ht & HS & g & ds & pds & Hg & Hixk & _).
    assert (Hg' := Hg). rewrite <- ix_path_inst in Hg'.
    destruct (@index_file_ix V f s (key_group k) g Hg' Hixk) as (E & (firsts & counts & R1 & R2 & R3 & R4 & R5 & R6) & HE).
    assert (Ee : ents f s k = E) by (unfold ents; rewrite R1; cbn; congruence). rewrite Ee in He.
    apply In_nth_error in He as (p & Hp). apply HE in Hp as (P1 & P2 & P3).
    destruct (@raw_position V f p t Ho Ht P1) as (raw & Hraw & Hrp & Hfirst).
    exists raw, p, g. rewrite <- Hk. auto.
  - eapply Forall_impl; [|exact M8]. intros e H. apply H.
  - apply fa_sources_In in Hs as [Hs|Hs]; [|assumption]. exfalso. destruct Hm as (Hi & _). destruct (reachable_inv R) as [(_ & _ & Hb) _].
    apply Hb in Hi as (f' & A & B & _). exact (K (N1 f Hin) A Hs B).
Qed.

(** The chunks of the field are those of the entries of its files. *)
Lemma cxi_chunks : forall chunks, find_data_chunks (mx_data m) s k = Ok chunks ->
  exists PE : list (faccess * list entry),
    Forall2 (fun pe c => In (fst pe) fs /\ chunk_for (fst pe) (snd pe) c /\ contig (snd pe) /\ nonneg_entries (snd pe) /\ StronglySorted Z.lt (map fst (snd pe)) /\
                         incl (snd pe) (filter (fun e => z_in (fst e) sel) (ents (fst pe) s k))) PE chunks /\
    flat_map (fun pe : faccess * list entry => map (@fst Z (Z * Z)) (snd pe)) PE = flat_map (fun f => filter (fun t => z_in t sel) (fa_tids f)) fs /\
    forall W (vals : faccess -> list W),
      flat_map (fun pe => flat_map (entry_rows (vals (fst pe))) (snd pe)) PE =
      flat_map (fun f => flat_map (entry_rows (vals f)) (filter (fun e => z_in (fst e) sel) (ents f s k))) fs.
Proof.
  intros chunks H. unfold find_data_chunks in H. fold fs in H.
  destruct fs as [|f0 fs'] eqn:Efs.
  { cbn in H. injection H as <-. exists []. split; [constructor|]. split; reflexivity. }
  rewrite <- Efs in *. assert (Hi : str_in s (dc_inst (mx_data m)) = true).
  { assert (Hf0 : In f0 fs) by (rewrite Efs; now left). destruct (cxi_file_facts Hf0) as (_ & _ & _ & _ & _ & Hif & _).
    apply source_files_In in Hf0 as [Hin Hs]. assert (Hsrc := det_source HM Hm Hin Hs).
    destruct (reachable_inv (mk_reach HM)) as [Hb _].
    destruct (@kind_split V (mx_data m) s Hb (det_kinds K HM) Hsrc) as [(_ & _ & X)|(_ & X & _)]; [|assumption].
    destruct (X f0 Hin Hs). contradiction. }
  rewrite Hi in H. apply bind_ok in H as (l & Hl & H). injection H as <-. apply mapM_ok_iff in Hl.
  change (dc_tids (mx_data m)) with sel in Hl.
  assert (Q : forall f, In f fs -> In f fs) by auto. revert Hl Q. generalize fs at 1 2 5 6. clear Efs fs' f0 Hi. intros l0 Hl Q.
  induction Hl as [|f chs l0 l Hf Hl IH].
  - exists []. split; [constructor|]. split; reflexivity.
  - destruct IH as (PE & I1 & I2 & I3); [intros; apply Q; now right|].
    destruct (cxi_file_facts (Q f (or_introl eq_refl))) as (X1 & X2 & X3 & X4 & X5 & X6 & X7).
    destruct (@file_chunks_spec V sel f s (key_group k) (ents f s k) chs X1 Hf) as (Es & HF2 & Hcc & HC & HN).
    exists (map (pair f) Es ++ PE). cbn [List.concat flat_map]. split; [|split].
    + apply Forall2_app; [|exact I1].
      assert (Hsub : forall E, In E Es -> incl E (filter (fun e => z_in (fst e) sel) (ents f s k))) by (intros E HE x Hx; rewrite <- Hcc; apply in_concat; eauto).
      assert (HSS : StronglySorted Z.lt (map fst (List.concat Es))).
      { rewrite Hcc. rewrite <- X2 in X5. clear -X5. induction (ents f s k) as [|e E IH]; [constructor|]. cbn in X5 |- *. inversion X5 as [|? ? Y1 Y2]; subst.
        destruct (z_in (fst e) sel); [|auto]. cbn. constructor; [auto|]. rewrite Forall_forall in *. intros t Ht. apply Y2.
        apply in_map_iff in Ht as (x & <- & Hx). apply filter_In in Hx as [Hx _]. now apply in_map. }
      clear -HF2 HC HN Hsub Q HSS. induction HF2 as [|E c Es chs Hh HF2 IH]; cbn [map]; constructor.
      * cbn [fst snd]. inversion HC; inversion HN; subst. split; [apply Q; now left|]. cbn in HSS; rewrite map_app in HSS; apply StronglySorted_app_inv in HSS as (HS1 & _).
        split; [assumption|]. split; [assumption|]. split; [assumption|]. split; [assumption|]. apply Hsub. now left.
      * inversion HC; inversion HN; subst. apply IH; try assumption; [intros; apply Hsub; now right|]. cbn in HSS; rewrite map_app in HSS; apply StronglySorted_app_inv in HSS as (_ & HS1 & _); exact HS1.
    + etransitivity; [apply flat_map_app|]. etransitivity; [apply f_equal; exact I2|]. f_equal. rewrite flat_map_concat_map, map_map. cbn [snd]. rewrite <- flat_map_concat_map.
      rewrite <- X2. transitivity (map (@fst Z (Z * Z)) (List.concat Es)); [clear; induction Es as [|E Es IH]; [reflexivity|]; cbn; now rewrite map_app, IH|].
      rewrite Hcc. clear. induction (ents f s k) as [|e E IH]; [reflexivity|]. cbn. destruct (z_in (fst e) sel); cbn; now rewrite IH.
    + intros W vals. rewrite flat_map_app, I3. f_equal. rewrite <- Hcc. clear. induction Es as [|E Es IH]; [reflexivity|]. cbn. now rewrite flat_map_app, IH.
Qed.

Lemma PE_nodup : NoDup (flat_map (fun f => filter (fun t => z_in t sel) (fa_tids f)) fs).
Proof.
  assert (H := fs_nodup G HM s). fold fs in H. clear -H.
  assert (E : flat_map (fun f : faccess => filter (fun t => z_in t sel) (fa_tids f)) fs = filter (fun t => z_in t sel) (flat_map (@fa_tids V) fs)).
  { induction fs as [|f l IH]; [reflexivity|]. cbn. now rewrite filter_app, <- IH by (cbn in H; eapply NoDup_app_r; exact H). }
  rewrite E. now apply NoDup_filter.
Qed.

(** All the rows of the module, labelled. *)
Definition module_rows {W} (vals : faccess -> list W) : list (Z * W) :=
  flat_map (fun f => flat_map (entry_rows (vals f)) (filter (fun e => z_in (fst e) sel) (ents f s k))) fs.

Section Step.
Context {T X W : Type} (at_ : T -> nat -> Z -> X) (inj : W -> X) (vals : faccess -> list W) (A : Type) (rdr : chunk V -> res A) (put : A -> Z -> Z -> nat -> T -> res T).
Context (Hlen : forall f, In f fs -> List.length (vals f) = List.length (ds_rows (dds f s k))).
Context (Hput : forall c x, In (ch_file c) fs -> rdr c = Ok x -> put_works at_ inj (put x) n (vals (ch_file c))).
Let step := fun tgt (c : chunk V) => let* x := rdr c in map_chunk m (put x) c tgt.

Lemma chunk_step : forall pe c x tgt, In (fst pe) fs -> chunk_for (fst pe) (snd pe) c -> contig (snd pe) -> nonneg_entries (snd pe) ->
  StronglySorted Z.lt (map fst (snd pe)) -> incl (snd pe) (filter (fun e => z_in (fst e) sel) (ents (fst pe) s k)) -> rdr c = Ok x ->
  forall good, (forall tgt', map_chunk m (put x) c tgt = Ok tgt' -> effA F sel at_ inj n (flat_map (entry_rows (vals (fst pe))) (snd pe)) tgt tgt') /\
    (progress (vals (ch_file c)) (put x) good -> good tgt -> exists tgt', map_chunk m (put x) c tgt = Ok tgt' /\ good tgt').
Proof.
  intros pe c x tgt Hin Hch Hco Hnn HSS Hinc Hx good. destruct fpt_pos as [HF0 HFz].
  destruct (cxi_file_facts Hin) as (X1 & X2 & X3 & X4 & X5 & X6 & X7). assert (Ec : ch_file c = fst pe) by apply Hch.
  unfold map_chunk, ids_per_frame. rewrite <- HFz, Nat2Z.id. rewrite Ec.
  apply (@chunk_effect T X W F sel HF0 (mk_sorted HM) at_ inj V (fst pe) (snd pe) c (put x) n (vals (fst pe)) good tgt); try assumption.
  - unfold fixed_counts in *. rewrite Forall_forall in *. intros e He. apply X3. now apply Hinc.
  - intros t Ht. apply in_map_iff in Ht as (e & <- & He). apply Hinc in He. apply filter_In in He as [_ He]. now apply z_in_iff in He.
  - rewrite Forall_forall in *. intros e He. apply Hinc in He. apply filter_In in He as [He _]. rewrite Hlen by assumption. now apply X4.
  - rewrite <- Ec. apply Hput; [now rewrite Ec|assumption].
Qed.

Lemma module_effect : forall chunks tgt tgt', find_data_chunks (mx_data m) s k = Ok chunks -> foldM step tgt chunks = Ok tgt' ->
  effA F sel at_ inj n (module_rows vals) tgt tgt'.
Proof.
  intros chunks tgt tgt' Hc Hf. destruct (cxi_chunks Hc) as (PE & P1 & P2 & P3).
  unfold module_rows. rewrite <- P3. rewrite flat_map_concat_map.
  destruct fpt_pos as [HF0 HFz]. assert (HN := PE_nodup). rewrite <- P2 in HN.
  eapply fold_effect; [| |exact Hf].
  - clear Hf Hc P2 P3 HN. induction P1 as [|pe c PE chunks (Hin & Hch & Hco & Hnn & HSS & Hinc) P1 IH]; cbn [map]; constructor; [|exact IH].
    intros t1 t2 Hs. unfold step in Hs. apply bind_ok in Hs as (x & Hx & Hs).
    destruct (chunk_step t1 Hin Hch Hco Hnn HSS Hinc Hx (fun _ => True)) as [Z1 _]. exact (Z1 t2 Hs).
  - clear -HN. induction PE as [|pe PE IH]; cbn [map]; constructor.
    + apply Forall_map, Forall_forall. intros pe' Hpe' t. cbn in HN. destruct (in_dec Z.eq_dec t (map fst (snd pe))) as [Hi|Hi].
      * right. apply rows_at_none. intros Hi'. eapply NoDup_app_disjoint; [exact HN|exact Hi|]. apply in_flat_map. eauto.
      * left. now apply rows_at_none.
    + apply IH. cbn in HN. eapply NoDup_app_r; exact HN.
Qed.

Lemma module_progress : forall chunks good tgt, find_data_chunks (mx_data m) s k = Ok chunks ->
  (forall c, In (ch_file c) fs -> exists x, rdr c = Ok x /\ progress (vals (ch_file c)) (put x) good) -> good tgt ->
  exists tgt', foldM step tgt chunks = Ok tgt' /\ good tgt'.
Proof.
  intros chunks good tgt Hc Hr Hg. destruct (cxi_chunks Hc) as (PE & P1 & _). apply fold_progress; [|exact Hg].
  intros c t1 Hin Hg1. apply (Forall2_In_r P1) in Hin as (pe & _ & (Hf & Hch & Hco & Hnn & HSS & Hinc)).
  assert (Ec : ch_file c = fst pe) by apply Hch. destruct (Hr c) as (x & Hx & Hp); [now rewrite Ec|].
  destruct (chunk_step t1 Hf Hch Hco Hnn HSS Hinc Hx good) as [_ Z2]. unfold step. rewrite Hx. cbn. now apply Z2.
Qed.
End Step.
End C.
