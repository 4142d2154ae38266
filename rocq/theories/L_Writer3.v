(** Opening a file made by the writer. *)
From Verif Require Import Base PyStr M_Files M_Machinery M_Reader M_Select M_Writer S_Reader S_Coll S_Avail S_Open S_Writer
  L_Base L_Machinery L_Reader L_GetArray L_Select L_Array2 L_Trains L_Sel2 L_Sel3 L_Hist L_Union L_Open L_Series L_Writer L_Writer2.
Set Implicit Arguments.
Unset Strict Implicit.
Local Open Scope string_scope.
Local Open Scope list_scope.

Lemma isort_perm : forall A (leb : A -> A -> bool) l, Permutation l (isort leb l).
Proof.
  intros A leb. induction l as [|x l IH]; [constructor|]. simpl.
  assert (P : forall l, Permutation (x :: l) (insert_sorted leb x l)).
  { clear. induction l as [|y l IH]; simpl; [constructor; constructor|]. destruct (leb x y); [apply Permutation_refl|].
    eapply Permutation_trans; [apply perm_swap|]. now constructor. }
  eapply Permutation_trans; [|apply P]. now constructor.
Qed.

Lemma regions_all : forall n, (0 < n)%nat -> contiguous_regions (repeat true n) = Ok [(0, n)%nat].
Proof.
  intros n Hn. destruct (contiguous_regions_correct (mask := repeat true n)) as (rs & E & M).
  { destruct n; [lia|discriminate]. }
  rewrite E. f_equal. apply (maximal_regions_unique M). split; [|split].
  - intros i. split.
    + intros H. exists 0%nat, n. split; [now left|]. apply nth_error_Some_lt in H. rewrite repeat_length in H. lia.
    + intros (a & b & [X|[]] & Hi). injection X as <- <-. rewrite nth_error_repeat by lia. reflexivity.
  - constructor; [simpl; lia|constructor].
  - constructor; constructor.
Qed.
Lemma np_isin_all : forall l, np_isin l l = repeat true (List.length l).
Proof.
  intros l. unfold np_isin.
  assert (G : forall l', incl l' l -> map (fun x => z_in x l) l' = repeat true (List.length l')).
  { induction l' as [|x l' IH]; intros H; [reflexivity|]. simpl. f_equal; [apply z_in_iff, H; now left|].
    apply IH. intros y Hy. apply H. now right. }
  apply G, incl_refl.
Qed.

Section W.
Context {V : Type}.
Notation faccess := (faccess V).
Notation dcoll := (dcoll V).
Notation larray := (larray V).
Notation reader := (dcoll -> bool -> string -> string -> res (option larray)).

Lemma tids_nonzero : forall d : dcoll, reachable d -> Forall (fun t => t <> 0)%Z (dc_tids d).
Proof.
  intros d H. induction H as [files d Hf H|d a d' H IH Hs|d a d' H IH Hs|d tr d' H IH Hs|d ds d' H IH Hds IHds Hu].
  - apply mk_collection_inv in H as (_ & _ & _ & -> & _). apply Forall_forall. intros t Ht. apply (proj1 (zsort_set_In _ _)) in Ht.
    apply in_flat_map in Ht as (f & Hin & Ht). rewrite Forall_forall in Hf. specialize (Hf f Hin).
    unfold fa_open in Hf. destruct (h5_trainid (fa_file f)) as [raw|]; [|discriminate].
    apply bind_ok in Hf as ([c i] & _ & Hf). assert (E : fa_tids f = nonzero_tids raw) by (rewrite <- (f_equal (fun r => match r with Ok a => fa_tids a | Err _ => [] end) Hf); reflexivity).
    rewrite E in Ht. apply filter_In in Ht as [_ Ht]. apply negb_true_iff, Z.eqb_neq in Ht. exact Ht.
  - unfold select in Hs. apply bind_ok in Hs as (sel & _ & Hs). apply mk_collection_inv in Hs as (_ & _ & _ & -> & _). exact IH.
  - unfold deselect in Hs. apply bind_ok in Hs as (sel & _ & Hs). apply bind_ok in Hs as (l & _ & Hs). apply mk_collection_inv in Hs as (_ & _ & _ & -> & _). exact IH.
  - unfold select_trains in Hs. apply bind_ok in Hs as (tids & E & Hs). apply mk_collection_inv in Hs as (_ & _ & _ & -> & _).
    apply new_tids_incl in E. rewrite Forall_forall in IH |- *. intros t Ht. apply IH. now apply E.
  - destruct Hu as (files & _ & Hu). unfold union_in_order in Hu. symmetry in Hu. apply mk_collection_inv in Hu as (_ & _ & _ & -> & _).
    apply Forall_forall. intros t Ht. unfold union_tids in Ht. apply (proj1 (zsort_set_In _ _)) in Ht. apply in_flat_map in Ht as (x & [<-|Hx] & Ht).
    + rewrite Forall_forall in IH. auto.
    + specialize (IHds x Hx). rewrite Forall_forall in IHds. auto.
Qed.

Lemma inst_name : forall (d : dcoll) s, reachable d -> In s (dc_inst d) -> instrument_name s.
Proof.
  intros d s Hr Hs. destruct (reachable_inv Hr) as [(_ & _ & Hb) Ho]. apply Hb in Hs as (f & Hf & Hsf & _).
  rewrite Forall_forall in Ho. specialize (Ho f Hf). unfold opened in Ho.
  destruct (open_spec (fa_file f)) as [O1 O2]. destruct (h5_trainid (fa_file f)) as [raw|]; [|rewrite O1 in Ho by reflexivity; discriminate].
  destruct (O2 raw eq_refl) as [O3 O4]. destruct (metadata_list (fa_file f)) as [l|]; [|rewrite O3 in Ho by reflexivity; discriminate].
  destruct (O4 l eq_refl) as [O5 O6].
  assert (D : (exists e, In e l /\ ~ good_entry e) \/ (forall e, In e l -> good_entry e)).
  { clear. induction l as [|e l IH]; [right; intros ? []|].
    assert (De : good_entry e \/ ~ good_entry e).
    { destruct (add_source_spec e [] []) as [A1 A2]. unfold good_entry, category.
      destruct (string_dec e "") as [->|Hne]; [left; now left|]. destruct (py_partition slash e) as [[cat m] h5] eqn:E. apply partition_cut in E.
      destruct (string_dec cat "CONTROL") as [->|N1]; [left; right; left; eexists; exact E|].
      destruct (string_dec cat "INSTRUMENT") as [->|N2]; [left; right; right; eexists; exact E|].
      right. intros [H|[[r H]|[r H]]]; [contradiction| |]; destruct (cut_fun E H); contradiction. }
    destruct De as [De|De]; [|left; exists e; split; [now left|exact De]].
    destruct IH as [(x & Hx & Hb)|Hall]; [left; exists x; split; [now right|exact Hb]|]. right. intros x [<-|Hx]; auto. }
  destruct D as [D|D]; [rewrite (O5 D) in Ho; discriminate|]. destruct (O6 D) as (fa & E & _ & _ & _ & Hi). rewrite E in Ho. injection Ho as ->.
  apply Hi in Hsf as (e & _ & _ & Hn). eapply names_instrument_name; eassumption.
Qed.

Lemma selected_available : forall (d : dcoll) c s k, reachable d -> distinct_kinds d ->
  (selected_field d (c, s, k) <-> available d s k /\ c = is_control d s).
Proof.
  intros d c s k Hr Hk. destruct (reachable_inv Hr) as [Hb _]. unfold selected_field, available, is_control.
  split.
  - intros [H1 H2]. destruct c.
    + split; [split; [apply set_union_In; now left|exact H2]|]. symmetry. now apply str_in_iff.
    + destruct (inst_not_ctrl Hb Hk H1) as [Hc Hs]. split; [split; assumption|]. now rewrite Hc.
  - intros [[H1 H2] ->]. split; [|exact H2]. destruct (str_in s (dc_ctrl d)) eqn:E; [now apply str_in_iff|].
    apply set_union_In in H1 as [H1|H1]; [|exact H1]. apply str_in_false in E. contradiction.
Qed.

Lemma labels_in_tids : forall (d : dcoll) s k a,
  reachable d -> distinct_kinds d -> good_files d -> good_index d s k -> get_array d s k = Ok a ->
  incl (la_labels a) (dc_tids d).
Proof.
  intros d s k a Hr Hk Hg Hi Ha t Ht. pose proof (get_array_lengths Ha) as Hl.
  destruct (@get_array_correct V d s k a Hr Hk Hg Hi Ha) as [_ H2].
  destruct (in_dec Z.eq_dec t (dc_tids d)) as [Hin|Hn]; [exact Hin|]. exfalso.
  assert (E : rows_labelled t (la_labels a) (la_rows a) = []) by (apply H2; tauto).
  apply In_nth_error in Ht as [p Hp]. assert (Hlt := nth_error_Some_lt _ _ Hp). rewrite Hl in Hlt.
  destruct (nth_error_ex _ Hlt) as [v Hv].
  assert (X : In v (rows_labelled t (la_labels a) (la_rows a))).
  { unfold rows_labelled. apply in_map_iff. exists (t, v). split; [reflexivity|]. apply filter_In. split; [|simpl; apply Z.eqb_refl].
    clear -Hp Hv. revert p Hp Hv. generalize (la_rows a). induction (la_labels a) as [|x l IH]; intros rows [|p] Hp Hv; try discriminate;
      destruct rows as [|y rows]; try discriminate; simpl in *.
    - left. congruence.
    - right. eauto. }
  rewrite E in X. destruct X.
Qed.

(** get_array on a collection with one file, all trains selected. *)
Lemma get_array_single : forall (d : dcoll) fa s k fi co ds L,
  dc_files d = [fa] -> In s (fa_sources fa) -> check_field d s k = Ok tt ->
  dc_tids d = fa_tids fa -> fa_tids fa <> [] ->
  fa_get_index fa s (if str_in s (dc_inst d) then key_group k else "") = Ok (fi, co) ->
  List.length co = List.length (fa_tids fa) -> nth_error fi 0 = Some 0%Z ->
  ch_dataset s k (mk_chunk fa 0 (fa_tids fa) co) = Ok ds ->
  Forall (fun c => 0 <= c)%Z co ->
  zsum co = Z.of_nat (List.length (ds_rows ds)) -> np_repeat (fa_tids fa) co = L -> List.length L = List.length (ds_rows ds) ->
  get_array d s k = Ok (mk_la (ds_dtype ds) (ds_item ds) L (ds_rows ds)).
Proof.
  intros d fa s k fi co ds L Hf Hs Hc Ht Hne Hix Hlc H0 Hds Hnn Hsum HL HlL.
  unfold get_array, sorted_chunks, find_data_chunks. rewrite Hc. cbn [bind].
  rewrite Hf. unfold source_files. cbn [filter]. rewrite (proj2 (str_in_iff _ _) Hs). cbn [mapM].
  unfold file_chunks at 1. rewrite Hix. cbn [bind]. rewrite Ht, np_isin_all, regions_all
    by (destruct (fa_tids fa); [congruence|simpl; lia]). cbn [bind mapM]. unfold nth_res. rewrite H0. cbn [bind].
  unfold nslice. rewrite Nat.sub_0_r. cbn [skipn]. rewrite firstn_all, <- Hlc, firstn_all. cbn [List.concat app].
  unfold sort_key. cbn [isort fold_right insert_sorted mapM]. rewrite Hds. cbn [bind]. unfold common_type. cbn [forallb negb bind].
  unfold read_chunk. cbn [ch_counts ch_first ch_tids]. 
  destruct (zsum co =? 0)%Z eqn:E.
  - apply Z.eqb_eq in E. rewrite E in Hsum. assert (ER : ds_rows ds = []) by (destruct (ds_rows ds); [reflexivity|simpl in Hsum; lia]).
    rewrite ER in HlL. assert (EL : L = []) by (destruct L; [reflexivity|discriminate]). cbn [bind flat_map fst snd app]. rewrite ER, EL. reflexivity.
  - rewrite Hds. cbn [bind]. unfold ds_slice, zslice. rewrite Z.add_0_l, Z.sub_0_r, Hsum, Nat2Z.id. cbn [Z.to_nat skipn].
    rewrite firstn_all, Z.eqb_refl. cbn [bind flat_map fst snd]. rewrite !app_nil_r.
    rewrite expand_trainids_eq by assumption; rewrite HL, HlL, Nat.eqb_refl. reflexivity.
Qed.

Lemma back_replace : forall s, ~ has_char "/" s -> py_replace slash dot (py_replace dot slash s) = s.
Proof.
  induction s as [|c s IH]; [reflexivity|]. simpl. intros H.
  unfold slash, dot in *. destruct (Ascii.eqb_spec c "."%char) as [->|N].
  - simpl. rewrite IH by tauto. reflexivity.
  - destruct (Ascii.eqb_spec c "/"%char) as [->|N2]; [exfalso; tauto|]. rewrite IH by tauto. reflexivity.
Qed.

Section Reopen.
Variables (d : dcoll) (name : string).
Hypothesis Hr : reachable d.
Hypothesis Hk : distinct_kinds d.
Hypothesis Hplain : plain_names d.
Variables (done : list (field * larray)) (ws : wstate V).
Hypothesis Hw : winv d done ws.
Hypothesis Hsel : forall x a, In (x, a) done -> selected_field d x.

Lemma done_entry : forall x a, In (x, a) done -> In (ix_entry x) (ws_sources ws).
Proof.
  intros x a Hin. destruct Hw as (_ & _ & _ & _ & I5 & _). destruct (I5 _ Hin) as ([y b] & Hq & E & _ & Hs). cbn [fst] in *.
  assert (Hx := Hsel Hin). assert (Hy := Hsel Hq). destruct x as [[c s] k]. destruct y as [[c' s'] k'].
  apply (selected_available _ _ _ Hr Hk) in Hx as [Ax ->]. apply (selected_available _ _ _ Hr Hk) in Hy as [Ay ->].
  cbn [ix_name] in E. assert (s' = s) by (apply (proj2 Hplain _ _ _ _ Ay Ax); exact E). subst s'.
  unfold ix_entry in *. rewrite <- E. exact Hs.
Qed.

Lemma entry_good : forall x a, In (x, a) done -> ix_entry x <> "" /\ good_entry (ix_entry x) /\
  (forall s, names_control (ix_entry x) s <-> fst (fst x) = true /\ s = snd (fst x)) /\
  (forall s, names_instrument (ix_entry x) s <-> fst (fst x) = false /\ s = snd (fst x)).
Proof.
  intros [[c s] k] a Hin. assert (Hx := Hsel Hin). cbn [fst snd]. destruct Hx as [Hx _]. unfold ix_entry. destruct c.
  - cbn [index_key]. split; [discriminate|]. assert (C : names_control ("CONTROL/" ++ s) s) by (apply control_roundtrip; reflexivity).
    split; [right; left; eexists; exact C|]. split; intros s'.
    + rewrite control_roundtrip. tauto.
    + split; [|intros [? _]; discriminate]. intros (r & dv & cg & ch & g & H1 & _). destruct (cut_fun C H1). discriminate.
  - split; [discriminate|]. apply (inst_name Hr) in Hx.
    assert (C : cut "/" ("INSTRUMENT/" ++ index_key false s k) "INSTRUMENT" (index_key false s k)).
    { split; [simpl; intuition discriminate|]. now left. }
    split; [right; right; eexists; exact C|]. split; intros s'.
    + split; [|intros [? _]; discriminate]. intros H1. destruct (cut_fun C H1). discriminate.
    + unfold index_key. destruct (String.eqb (before_dot k) "").
      * destruct Hx as (dev & chan & -> & Hd & Hc).
        assert (C1 : cut "/" ("INSTRUMENT/" ++ (dev ++ ":" ++ chan)) "INSTRUMENT" (dev ++ ":" ++ chan)).
        { split; [simpl; intuition discriminate|]. now left. }
        assert (C2 : cut ":" (dev ++ ":" ++ chan) dev chan) by (split; [assumption|now left]).
        assert (C3 : cut "/" chan chan "") by (split; [assumption|now right]).
        split.
        -- intros (r & d2 & cg & c2 & g2 & H1 & H2 & H3 & ->). destruct (cut_fun C1 H1) as [_ <-]. destruct (cut_fun C2 H2) as [<- <-].
           destruct (cut_fun C3 H3) as [<- _]. auto.
        -- intros [_ ->]. do 5 eexists. split; [exact C1|]. split; [exact C2|]. split; [exact C3|reflexivity].
      * rewrite (instrument_roundtrip _ _ Hx). tauto.
Qed.

Lemma reopen_fa : exists fa, fa_open (ws_file name d ws) = Ok fa /\ fa_file fa = ws_file name d ws /\ fa_tids fa = dc_tids d /\
  (forall s, In s (fa_ctrl fa) <-> exists k a, In ((true, s, k), a) done) /\
  (forall s, In s (fa_inst fa) <-> exists k a, In ((false, s, k), a) done).
Proof.
  destruct (open_spec (ws_file name d ws)) as [_ O]. destruct (O (dc_tids d) eq_refl) as [_ O2].
  destruct (O2 (isort String.leb (ws_sources ws)) eq_refl) as [_ O3].
  assert (HI : forall e, In e (isort String.leb (ws_sources ws)) <-> exists x a, In (x, a) done /\ e = ix_entry x).
  { intros e. split.
    - intros He. assert (He' : In e (ws_sources ws)) by (eapply Permutation_in; [symmetry; apply isort_perm|exact He]).
      destruct Hw as (_ & _ & _ & _ & _ & I6). destruct (I6 e He') as ([x a] & Hp & ->). eauto.
    - intros (x & a & Hin & ->). eapply Permutation_in; [apply isort_perm|]. eapply done_entry; eassumption. }
  destruct O3 as (fa & E & Ef & Et & Hc & Hi).
  { intros e He. apply HI in He as (x & a & Hin & ->). apply (entry_good Hin). }
  exists fa. split; [exact E|]. split; [exact Ef|]. split; [|split].
  - rewrite Et. apply filter_all. eapply Forall_impl; [|apply (tids_nonzero Hr)]. intros t Ht. cbn in Ht. apply negb_true_iff. now apply Z.eqb_neq.
  - intros s. rewrite Hc. split.
    + intros (e & He & _ & Hn). apply HI in He as ([[c s0] k] & a & Hin & ->). apply (entry_good Hin) in Hn as [E1 E2]. cbn in E1, E2. subst. eauto.
    + intros (k & a & Hin). exists (ix_entry (true, s, k)). split; [apply HI; eauto|]. destruct (entry_good Hin) as (H1 & _ & H3 & _).
      split; [exact H1|]. apply H3. auto.
  - intros s. rewrite Hi. split.
    + intros (e & He & _ & Hn). apply HI in He as ([[c s0] k] & a & Hin & ->). apply (entry_good Hin) in Hn as [E1 E2]. cbn in E1, E2. subst. eauto.
    + intros (k & a & Hin). exists (ix_entry (false, s, k)). split; [apply HI; eauto|]. destruct (entry_good Hin) as (H1 & _ & _ & H3).
      split; [exact H1|]. apply H3. auto.
Qed.

Lemma single_conflicts : forall fa : faccess, check_source_conflicts [fa] = Ok tt.
Proof.
  intros fa. unfold check_source_conflicts. destruct (existsb _ _) eqn:E; [|reflexivity]. exfalso.
  apply existsb_exists in E as (s & _ & E). unfold source_files in E. simpl in E. destruct (str_in s (fa_sources fa)); [|discriminate].
  simpl in E. assert (X : existsb (fun _ : Z => false) (fa_tids fa) = false).
  { clear. induction (fa_tids fa) as [|t l IH]; [reflexivity|exact IH]. }
  rewrite X in E. discriminate.
Qed.

Lemma reopen_coll : StronglySorted Z.lt (dc_tids d) -> exists fa d', open_one (ws_file name d ws) = Ok d' /\
  fa_open (ws_file name d ws) = Ok fa /\ fa_file fa = ws_file name d ws /\ fa_tids fa = dc_tids d /\
  mk_collection [fa] None None = Ok d' /\ dc_files d' = [fa] /\ dc_tids d' = dc_tids d /\ reachable d' /\ distinct_kinds d' /\
  (forall s, In s (dc_ctrl d') <-> exists k a, In ((true, s, k), a) done) /\
  (forall s, In s (dc_inst d') <-> exists k a, In ((false, s, k), a) done) /\
  (forall s, In s (fa_ctrl fa) <-> exists k a, In ((true, s, k), a) done) /\
  (forall s, In s (fa_inst fa) <-> exists k a, In ((false, s, k), a) done).
Proof.
  intros Hs. destruct reopen_fa as (fa & E & Ef & Et & Hc & Hi).
  destruct (mk_collection_total [fa] None None (single_conflicts fa)) as [d' Hd']. exists fa, d'.
  unfold open_one. rewrite E. cbn [bind]. split; [exact Hd'|]. split; [reflexivity|]. split; [exact Ef|]. split; [exact Et|]. split; [exact Hd'|].
  assert (Hinv := Hd'). apply mk_collection_inv in Hinv as (H1 & _ & H3 & H4 & H5 & H6). split; [exact H1|].
  assert (Hsrc : forall s, In s (fa_sources fa) -> In s (dict_keys (dc_sel d'))).
  { intros s Hin. rewrite H3. apply default_sel_get. exists fa. split; [now left|exact Hin]. }
  split. { rewrite H4. simpl. rewrite app_nil_r, Et. apply sorted_lt_ext; [apply zsort_set_sorted|exact Hs|intros x; apply zsort_set_In]. }
  split. { eapply reach_open; [|exact Hd']. constructor; [|constructor]. rewrite Ef. exact E. }
  split. { intros f f' s Hf Hf' Hcs His. rewrite H1 in Hf, Hf'. destruct Hf as [<-|[]]. destruct Hf' as [<-|[]].
    apply Hc in Hcs as (k & a & Hin). apply Hi in His as (k' & a' & Hin').
    apply Hsel in Hin. apply Hsel in Hin'. apply (selected_available _ _ _ Hr Hk) in Hin as [_ E1].
    apply (selected_available _ _ _ Hr Hk) in Hin' as [_ E2]. congruence. }
  split; [|split; [|split; assumption]].
  - intros s. rewrite H5, <- Hc. split; [intros (f & [<-|[]] & Hf & _); exact Hf|]. intros Hf. exists fa. split; [now left|]. split; [exact Hf|].
    apply Hsrc. apply fa_sources_In. now left.
  - intros s. rewrite H6, <- Hi. split; [intros (f & [<-|[]] & Hf & _); exact Hf|]. intros Hf. exists fa. split; [now left|]. split; [exact Hf|].
    apply Hsrc. apply fa_sources_In. now right.
Qed.

(** The index entry of a field: counts of its labels. *)
Hypothesis Harr : forall x a, In (x, a) done -> get_array d (snd (fst x)) (snd x) = Ok a.

Lemma reopen_index : forall c s k a, In ((c, s, k), a) done ->
  dict_get (index_key c s k) (h5_index (ws_file name d ws)) =
    Some (mk_ix (make_firsts (label_counts (dc_tids d) (la_labels a))) (IxCount (label_counts (dc_tids d) (la_labels a)))) /\
  (c = true -> NoDup (la_labels a)).
Proof.
  intros c s k a Hin. destruct (winv_index name Hw Hin) as ([[c' s'] k'] & b & fi & co & Hb & En & Hm & Hg). cbn [ix_name] in *.
  assert (Hx := Hsel Hin). assert (Hy := Hsel Hb).
  apply (selected_available _ _ _ Hr Hk) in Hx as [Ax ->]. apply (selected_available _ _ _ Hr Hk) in Hy as [Ay ->].
  assert (s' = s) by (apply (proj2 Hplain _ _ _ _ Ay Ax); exact En). subst s'.
  assert (El : la_labels b = la_labels a).
  { assert (G1 := Harr Hb). assert (G2 := Harr Hin). cbn [fst snd] in G1, G2. eapply get_array_group_labels; [|exact G1|exact G2].
    intros Hsi. destruct (reachable_inv Hr) as [Hbu _]. destruct (inst_not_ctrl Hbu Hk Hsi) as [Hc _]. unfold is_control in En. rewrite Hc in En.
    rewrite !key_group_before_dot. unfold index_key in En.
    assert (LS : forall x y, String.length (x ++ y)%string = (String.length x + String.length y)%nat).
    { induction x as [|ch x IH]; intros y; simpl; [reflexivity|]. now rewrite IH. }
    destruct (String.eqb_spec (before_dot k') "") as [->|N1], (String.eqb_spec (before_dot k) "") as [->|N2]; try reflexivity.
    - exfalso. apply (f_equal String.length) in En. rewrite LS in En. simpl in En. lia.
    - exfalso. apply (f_equal String.length) in En. rewrite LS in En. simpl in En. lia.
    - assert (C : forall x y z, (x ++ y)%string = (x ++ z)%string -> y = z).
      { induction x as [|ch x IH]; intros y z E; [exact E|]. simpl in E. injection E as E. auto. }
      apply C in En. simpl in En. injection En as En. exact En. }
  rewrite Hg. unfold ix_made in Hm. cbn [fst] in Hm. rewrite El in Hm. destruct (is_control d s).
  - apply control_index_counts in Hm as [HN Hv]. injection Hv as -> ->. split; [reflexivity|auto].
  - rewrite generate_index_counts in Hm. injection Hm as <- <-. split; [reflexivity|discriminate].
Qed.

(** Reading a field of the new file gives the array that was written. *)
Lemma reopen_array : in_order d -> good_files d -> dc_tids d <> [] ->
  (forall s k, available d s k -> good_index d s k) ->
  forall d' fa, open_one (ws_file name d ws) = Ok d' -> fa_open (ws_file name d ws) = Ok fa ->
  forall c s k a, In ((c, s, k), a) done ->
   available d' s k /\ is_control d' s = is_control d s /\ get_array d' s k = Ok a.
Proof.
  intros [Hsort Hseq] Hgf Hne Hgi d1 fa1 Ed1 Efa1 c s k a Hin.
  destruct (reopen_coll Hsort) as (fa & d' & Ed & Efa & Ef & Et & Hmk & Hfiles & Htids & Hr' & Hk' & Hc' & Hi' & Hfc & Hfi).
  rewrite Ed in Ed1. injection Ed1 as <-. rewrite Efa in Efa1. injection Efa1 as <-.
  assert (Hx := Hsel Hin). apply (selected_available _ _ _ Hr Hk) in Hx as [Ax Hcs].
  assert (Hctrl : str_in s (fa_ctrl fa) = c).
  { destruct c; [apply str_in_iff, Hfc; eauto|]. apply str_in_false. intros X. apply Hfc in X as (k' & a' & X). apply Hsel in X.
    apply (selected_available _ _ _ Hr Hk) in X as [_ X]. congruence. }
  assert (Hinst : str_in s (fa_inst fa) = negb c).
  { destruct c; simpl; [|apply str_in_iff, Hfi; eauto]. apply str_in_false. intros X. apply Hfi in X as (k' & a' & X). apply Hsel in X.
    apply (selected_available _ _ _ Hr Hk) in X as [_ X]. congruence. }
  assert (Hctrl' : str_in s (dc_ctrl d') = c).
  { destruct c; [apply str_in_iff, Hc'; eauto|]. apply str_in_false. intros X. apply Hc', Hfc in X. apply str_in_iff in X. congruence. }
  assert (Hinst' : str_in s (dc_inst d') = negb c).
  { destruct c; simpl; [|apply str_in_iff, Hi'; eauto]. apply str_in_false. intros X. apply Hi', Hfi in X. apply str_in_iff in X.
    rewrite Hinst in X. discriminate. }
  assert (Hsf : In s (fa_sources fa)).
  { apply fa_sources_In. destruct c; [left; now apply str_in_iff|right; now apply str_in_iff]. }
  assert (Hdata := winv_data name Hw Hin). cbn [ds_name] in Hdata.
  assert (Av : available d' s k).
  { apply (open_available s k Hmk). exists fa, (keys_below ((if c then "CONTROL/" else "INSTRUMENT/") ++ s)%string (fa_file fa)).
    split; [exists [], []; split; [exact Hfiles|]; split; [exact Hsf|intros ? []]|]. split.
    - unfold fa_get_keys. rewrite Hctrl, Hinst. destruct c; reflexivity.
    - apply keys_below_spec. exists (dots_to_slashes k), (ds_of a). split.
      + rewrite Ef. apply dict_get_In. rewrite <- Hdata. f_equal. unfold data_key. rewrite append_assoc_s. destruct c; reflexivity.
      + rewrite <- replace_dots. symmetry. apply back_replace. exact (proj1 Hplain s k Ax). }
  split; [exact Av|]. split; [unfold is_control at 1; congruence|].
  assert (Ga := Harr Hin). cbn [fst snd] in Ga. destruct (reopen_index Hin) as [Hidx Hnd].
  assert (HN : NoDup (dc_tids d)) by now apply StronglySorted_NoDup_lt.
  assert (Hincl := labels_in_tids Hr Hk Hgf (Hgi s k Ax) Ga).
  assert (Hsl : StronglySorted Z.le (la_labels a)).
  { exact (@get_array_sequence_sorted V d s k a Hr Hk Hgf (Hgi s k Ax) (Hseq s (proj1 Ax)) Ga). }
  assert (Ea : a = mk_la (ds_dtype (ds_of a)) (ds_item (ds_of a)) (la_labels a) (ds_rows (ds_of a))) by (destruct a; reflexivity).
  rewrite Ea. eapply get_array_single with (fa := fa) (fi := make_firsts (label_counts (dc_tids d) (la_labels a)))
    (co := label_counts (dc_tids d) (la_labels a)); try assumption.
  - destruct Av as (Av1 & ks & Av2 & Av3). unfold check_field. rewrite (proj2 (str_in_iff _ _) Av1). cbn [negb]. rewrite Av2. cbn [bind].
    now rewrite (proj2 (str_in_iff _ _) Av3).
  - congruence.
  - rewrite Et. assumption.
  - rewrite Hinst'. unfold fa_get_index. rewrite Et, Ef.
    assert (Ep : ix_path s (if negb c then key_group k else "") = index_key c s k).
    { destruct c; [reflexivity|]. apply ix_path_inst. }
    rewrite Ep, Hidx. cbn [ix_first ix_more].
    rewrite firstn_all2 by (rewrite make_firsts_from, firsts_from_length, label_counts_length; lia).
    rewrite firstn_all2 by (rewrite label_counts_length; lia). reflexivity.
  - rewrite label_counts_length. congruence.
  - rewrite make_firsts_from, firsts_from_nth; [reflexivity|]. rewrite label_counts_length. destruct (dc_tids d); [congruence|simpl; lia].
  - unfold ch_dataset. cbn [ch_file]. rewrite Hinst, Hctrl. unfold fa_dataset. rewrite Ef. destruct c; cbn [negb].
    + rewrite ds_path_ctrl, Hdata. reflexivity.
    + rewrite ds_path_inst, Hdata. reflexivity.
  - apply label_counts_nonneg.
  - cbn [ds_of ds_rows]. rewrite label_counts_sum by assumption. f_equal. exact (get_array_lengths Ga).
  - rewrite Et. now apply repeat_label_counts.
  - exact (get_array_lengths Ga).
Qed.

(** No other field is in the new file. *)
Lemma reopen_only : no_nesting d -> StronglySorted Z.lt (dc_tids d) ->
  forall d', open_one (ws_file name d ws) = Ok d' ->
  forall s k, available d' s k -> exists a, In ((is_control d s, s, k), a) done.
Proof.
  intros Hnest Hsort d1 Ed1 s k Av.
  destruct (reopen_coll Hsort) as (fa & d' & Ed & Efa & Ef & Et & Hmk & Hfiles & Htids & Hr' & Hk' & Hc' & Hi' & Hfc & Hfi).
  rewrite Ed in Ed1. injection Ed1 as <-. apply (open_available s k Hmk) in Av as (f & ks & (l1 & l2 & E & Hsf & _) & Hks & Hk0).
  rewrite Hfiles in E. assert (f = fa). { destruct l1 as [|y l1]; [now injection E as <-|]. destruct l1; discriminate. } subst f.
  assert (X : exists c k0 a0, In ((c, s, k0), a0) done /\ fa_get_keys fa s = Ok (keys_below ((if c : bool then "CONTROL/" else "INSTRUMENT/") ++ s)%string (fa_file fa))).
  { unfold fa_get_keys. destruct (str_in s (fa_ctrl fa)) eqn:E1.
    - apply str_in_iff, Hfc in E1 as (k0 & a0 & E1). exists true, k0, a0. split; [exact E1|reflexivity].
    - apply fa_sources_In in Hsf as [Hsf|Hsf]; [apply str_in_false in E1; contradiction|]. rewrite (proj2 (str_in_iff _ _) Hsf).
      apply Hfi in Hsf as (k0 & a0 & E2). exists false, k0, a0. split; [exact E2|reflexivity]. }
  destruct X as (c & k0 & a0 & Hin0 & E2). rewrite E2 in Hks. injection Hks as <-.
  assert (A0 := Hsel Hin0). apply (selected_available _ _ _ Hr Hk) in A0 as [A0 Hcs].
  apply keys_below_spec in Hk0 as (rel & ds & Hd & ->). rewrite Ef in Hd. cbn [ws_file h5_data] in Hd.
  destruct Hw as (I1 & _). rewrite I1 in Hd. apply in_map_iff in Hd as ([[[c' s'] k'] a'] & E3 & Hin'). cbn [fst snd ds_name] in E3.
  assert (A1 := Hsel Hin'). apply (selected_available _ _ _ Hr Hk) in A1 as [A1 Hcs'].
  injection E3 as E3 _. unfold data_key in E3.
  assert (Ecc : c = c' /\ (s' ++ "/" ++ dots_to_slashes k')%string = (s ++ "/" ++ rel)%string).
  { rewrite append_assoc_s in E3. destruct c, c'; simpl in E3; try discriminate; injection E3 as E3; auto. }
  destruct Ecc as [<- E4].
  assert (Hss : s = s' /\ dots_to_slashes k' = rel).
  { assert (C : forall x y u v, (x ++ "/" ++ u)%string = (y ++ "/" ++ v)%string ->
       (x = y /\ u = v) \/ (exists r, y = (x ++ "/" ++ r)%string) \/ (exists r, x = (y ++ "/" ++ r)%string)).
    { induction x as [|ch x IH]; intros [|ch' y] u v E0.
      - left. simpl in E0. injection E0 as E0. auto.
      - right. left. simpl in E0. injection E0 as <- E0. exists y. reflexivity.
      - right. right. simpl in E0. injection E0 as -> E0. exists x. reflexivity.
      - simpl in E0. injection E0 as <- E0. destruct (IH y u v E0) as [[-> ->]|[[r ->]|[r ->]]]; [now left|right; left; now exists r|right; right; now exists r]. }
    destruct (C _ _ _ _ E4) as [[-> <-]|[[r Er]|[r Er]]]; [auto| |]; exfalso.
    - exact (Hnest s' s r (proj1 A1) (proj1 A0) Er).
    - exact (Hnest s s' r (proj1 A0) (proj1 A1) Er). }
  destruct Hss as [<- <-]. exists a'. rewrite <- Hcs'. rewrite <- replace_dots, back_replace by (exact (proj1 Hplain _ _ A1)). exact Hin'.
Qed.
End Reopen.
End W.
