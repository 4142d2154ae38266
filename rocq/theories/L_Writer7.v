(** Writing data which is not in the order of the trains. *)
From Verif Require Import Base PyStr M_Files M_Machinery M_Reader M_Select M_Writer S_Reader S_Coll S_Avail S_Open S_Writer
  L_Base L_Machinery L_Reader L_GetArray L_Select L_Array2 L_Trains L_Sel2 L_Sel3 L_Hist L_Union L_Open L_Series L_Writer L_Writer2 L_Writer3 L_Writer4.
Set Implicit Arguments.
Unset Strict Implicit.
Local Open Scope string_scope.
Local Open Scope list_scope.

(** Repeating each train as often as it occurs sorts the labels. *)
Lemma split_perm : forall l t, Permutation (repeat t (Z.to_nat (count_tid l t)) ++ filter (fun x => negb (x =? t)%Z) l) l.
Proof.
  induction l as [|x l IH]; intros t; [reflexivity|]. rewrite count_tid_cons. cbn [filter]. rewrite (Z.eqb_sym t x).
  destruct (Z.eqb_spec x t) as [->|N]; cbn [negb].
  - rewrite Z2Nat.inj_add by (try lia; apply count_tid_nonneg). cbn. constructor. apply IH.
  - rewrite Z.add_0_l. etransitivity; [symmetry; apply Permutation_middle|]. constructor. apply IH.
Qed.
Lemma counts_filter : forall t tids labels, ~ In t tids ->
  label_counts tids (filter (fun x => negb (x =? t)%Z) labels) = label_counts tids labels.
Proof.
  intros t tids labels Hn. unfold label_counts. apply map_ext_in. intros y Hy. unfold count_tid. f_equal. f_equal.
  induction labels as [|x l IH]; [reflexivity|]. cbn [filter]. destruct (Z.eqb_spec x t) as [->|N]; cbn [negb].
  - destruct (Z.eqb_spec y t); [subst; contradiction|exact IH].
  - cbn [filter]. destruct (y =? x)%Z; [f_equal; exact IH|exact IH].
Qed.
Lemma sorted_labels_perm : forall tids labels, NoDup tids -> incl labels tids -> Permutation (np_repeat tids (label_counts tids labels)) labels.
Proof.
  induction tids as [|t tids IH]; intros labels HN Hi.
  - destruct labels as [|x l]; [reflexivity|]. destruct (Hi x); now left.
  - inversion HN as [|? ? Hn HN']; subst. etransitivity; [|apply (split_perm labels t)].
    change (np_repeat (t :: tids) (label_counts (t :: tids) labels)) with (repeat t (Z.to_nat (count_tid labels t)) ++ np_repeat tids (label_counts tids labels)).
    apply Permutation_app_head. rewrite <- (counts_filter labels Hn). apply IH; [exact HN'|].
    intros x Hx. apply filter_In in Hx as [Hx Hne]. apply negb_true_iff, Z.eqb_neq in Hne. apply Hi in Hx as [->|Hx]; [congruence|assumption].
Qed.
Lemma np_repeat_sorted : forall tids counts, StronglySorted Z.lt tids -> StronglySorted Z.le (np_repeat tids counts).
Proof.
  induction tids as [|t tids IH]; intros counts HS; [constructor|]. destruct counts as [|c counts]; [constructor|].
  inversion HS as [|? ? HS' Hlt]; subst.
  change (np_repeat (t :: tids) (c :: counts)) with (repeat t (Z.to_nat c) ++ np_repeat tids counts).
  assert (G : Forall (fun x => t <= x)%Z (np_repeat tids counts)).
  { apply Forall_forall. intros x Hx. unfold np_repeat in Hx. rewrite in_flat_map in Hx. destruct Hx as ([y n] & Hy & Hx).
    apply in_combine_l in Hy. apply repeat_spec in Hx. cbn [fst] in Hx. subst x. rewrite Forall_forall in Hlt. specialize (Hlt y Hy). lia. }
  induction (Z.to_nat c) as [|n IHn]; [apply IH; exact HS'|]. cbn [repeat app]. constructor; [exact IHn|].
  apply Forall_app. split; [|exact G]. apply Forall_forall. intros x Hx. apply repeat_spec in Hx. lia.
Qed.

Section Reorder.
Variable V : Type.
Notation dcoll := (dcoll V).
Notation faccess := (faccess V).
Notation larray := (larray V).
Section Reopen.
Variables (d : dcoll) (name : string).
Hypothesis Hr : reachable d.
Hypothesis Hk : distinct_kinds d.
Hypothesis Hplain : plain_names d.
Variables (done : list (field * larray)) (ws : wstate V).
Hypothesis Hw : winv d done ws.
Hypothesis Hsel : forall x a, In (x, a) done -> selected_field d x.
Hypothesis Harr : forall x a, In (x, a) done -> get_array d (snd (fst x)) (snd x) = Ok a.

Lemma reopen_array_any : StronglySorted Z.lt (dc_tids d) -> good_files d -> dc_tids d <> [] ->
  (forall s k, available d s k -> good_index d s k) ->
  forall d' fa, open_one (ws_file name d ws) = Ok d' -> fa_open (ws_file name d ws) = Ok fa ->
  forall c s k a, In ((c, s, k), a) done ->
   available d' s k /\ is_control d' s = is_control d s /\
   get_array d' s k = Ok (mk_la (la_dtype a) (la_item a) (np_repeat (dc_tids d) (label_counts (dc_tids d) (la_labels a))) (la_rows a)).
Proof.
  intros Hsort Hgf Hne Hgi d1 fa1 Ed1 Efa1 c s k a Hin.
  destruct (reopen_coll name Hr Hk Hplain Hw Hsel Hsort) as (fa & d' & Ed & Efa & Ef & Et & Hmk & Hfiles & Htids & Hr' & Hk' & Hc' & Hi' & Hfc & Hfi).
  rewrite Ed in Ed1. injection Ed1 as <-. rewrite Efa in Efa1. injection Efa1 as <-.
  assert (Hx := Hsel Hin). apply (selected_available _ _ _ Hr Hk) in Hx as [Ax Hcs].
  assert (Hctrl : str_in s (fa_ctrl fa) = c).
  { destruct c; [apply str_in_iff, Hfc; eauto|]. apply str_in_false. intros X. apply Hfc in X as (k' & a' & X). apply Hsel in X.
    apply (selected_available _ _ _ Hr Hk) in X as [_ X]. congruence. }
  assert (Hinst : str_in s (fa_inst fa) = negb c).
  { destruct c; simpl; [|apply str_in_iff, Hfi; eauto]. apply str_in_false. intros X. apply Hfi in X as (k' & a' & X). apply Hsel in X.
    apply (selected_available _ _ _ Hr Hk) in X as [_ X]. congruence. }
  assert (Hctrl' : str_in s (dc_ctrl d') = c).
  { destruct c; [apply str_in_iff, Hc'; eauto|]. apply str_in_false. intros X. apply Hc', Hfc in X. apply str_in_iff in X. congruence. }
  assert (Hinst' : str_in s (dc_inst d') = negb c).
  { destruct c; simpl; [|apply str_in_iff, Hi'; eauto]. apply str_in_false. intros X. apply Hi', Hfi in X. apply str_in_iff in X.
    rewrite Hinst in X. discriminate. }
  assert (Hsf : In s (fa_sources fa)).
  { apply fa_sources_In. destruct c; [left; now apply str_in_iff|right; now apply str_in_iff]. }
  assert (Hdata := winv_data name Hw Hin). cbn [ds_name] in Hdata.
  assert (Av : available d' s k).
  { apply (open_available s k Hmk). exists fa, (keys_below ((if c then "CONTROL/" else "INSTRUMENT/") ++ s)%string (fa_file fa)).
    split; [exists [], []; split; [exact Hfiles|]; split; [exact Hsf|intros ? []]|]. split.
    - unfold fa_get_keys. rewrite Hctrl, Hinst. destruct c; reflexivity.
    - apply keys_below_spec. exists (dots_to_slashes k), (ds_of a). split.
      + rewrite Ef. apply dict_get_In. rewrite <- Hdata. f_equal. unfold data_key. rewrite append_assoc_s. destruct c; reflexivity.
      + rewrite <- replace_dots. symmetry. apply back_replace. exact (proj1 Hplain s k Ax). }
  split; [exact Av|]. split; [unfold is_control at 1; congruence|].
  assert (Ga := Harr Hin). cbn [fst snd] in Ga. destruct (reopen_index name Hr Hk Hplain Hw Hsel Harr Hin) as [Hidx Hnd].
  assert (HN : NoDup (dc_tids d)) by now apply StronglySorted_NoDup_lt.
  assert (Hincl := labels_in_tids Hr Hk Hgf (Hgi s k Ax) Ga).
  assert (Hlen : List.length (np_repeat (dc_tids d) (label_counts (dc_tids d) (la_labels a))) = List.length (la_labels a))
    by (apply Permutation_length, sorted_labels_perm; assumption).
  change (la_dtype a) with (ds_dtype (ds_of a)). change (la_item a) with (ds_item (ds_of a)). change (la_rows a) with (ds_rows (ds_of a)).
  eapply get_array_single with (fa := fa) (fi := make_firsts (label_counts (dc_tids d) (la_labels a)))
    (co := label_counts (dc_tids d) (la_labels a)); try assumption.
  - destruct Av as (Av1 & ks & Av2 & Av3). unfold check_field. rewrite (proj2 (str_in_iff _ _) Av1). cbn [negb]. rewrite Av2. cbn [bind].
    now rewrite (proj2 (str_in_iff _ _) Av3).
  - congruence.
  - rewrite Et. assumption.
  - rewrite Hinst'. unfold fa_get_index. rewrite Et, Ef.
    assert (Ep : ix_path s (if negb c then key_group k else "") = index_key c s k).
    { destruct c; [reflexivity|]. apply ix_path_inst. }
    rewrite Ep, Hidx. cbn [ix_first ix_more].
    rewrite firstn_all2 by (rewrite make_firsts_from, firsts_from_length, label_counts_length; lia).
    rewrite firstn_all2 by (rewrite label_counts_length; lia). reflexivity.
  - rewrite label_counts_length. congruence.
  - rewrite make_firsts_from, firsts_from_nth; [reflexivity|]. rewrite label_counts_length. destruct (dc_tids d); [congruence|simpl; lia].
  - unfold ch_dataset. cbn [ch_file]. rewrite Hinst, Hctrl. unfold fa_dataset. rewrite Ef. destruct c; cbn [negb].
    + rewrite ds_path_ctrl, Hdata. reflexivity.
    + rewrite ds_path_inst, Hdata. reflexivity.
  - apply label_counts_nonneg.
  - cbn [ds_of ds_rows]. rewrite label_counts_sum by assumption. f_equal. exact (get_array_lengths Ga).
  - now rewrite Et.
  - rewrite Hlen. exact (get_array_lengths Ga).
Qed.

End Reopen.

Theorem reopen_reordered : forall (d : dcoll) name f, reachable d -> distinct_kinds d -> plain_names d -> StronglySorted Z.lt (dc_tids d) -> good_files d ->
  (forall s k, available d s k -> good_index d s k) -> dc_tids d <> [] -> write name d = Ok f ->
  exists d', open_one f = Ok d' /\ dc_tids d' = dc_tids d /\
    forall s k a, available d s k -> get_array d s k = Ok a ->
      available d' s k /\ exists labels, get_array d' s k = Ok (mk_la (la_dtype a) (la_item a) labels (la_rows a)) /\
        Permutation labels (la_labels a) /\ StronglySorted Z.le labels.
Proof.
  intros d name f Hr Hk Hp Hs Hg Hgi Hne Hf. unfold write in Hf. destruct (write_content Hf) as (done & ws & -> & Hw & H1 & H2).
  assert (Hsel : forall x a, In (x, a) done -> selected_field d x) by (intros x a Hin; apply (H1 _ _ Hin)).
  assert (Harr : forall x a, In (x, a) done -> get_array d (snd (fst x)) (snd x) = Ok a).
  { intros [[c s] k] a Hin. destruct (H1 _ _ Hin) as [A B]. cbn [fst snd] in *. destruct (read_real_ok B) as (a' & E & G & _). injection E as ->. exact G. }
  destruct (reopen_coll name Hr Hk Hp Hw Hsel Hs) as (fa & d' & Ed & Efa & _ & _ & _ & _ & Htids & _).
  exists d'. split; [exact Ed|]. split; [exact Htids|]. intros s k a Ha Ga.
  assert (Sf : selected_field d (is_control d s, s, k)) by (apply selected_available; auto).
  destruct (H2 _ _ _ Sf) as [E|(a' & E & Hin)]; [destruct (read_real_ok E) as (a2 & X & _); discriminate|].
  assert (a' = a) by (specialize (Harr _ _ Hin); cbn [fst snd] in Harr; congruence). subst a'.
  destruct (@reopen_array_any d name Hr Hk Hp done ws Hw Hsel Harr Hs Hg Hne Hgi d' fa Ed Efa _ _ _ _ Hin) as (A & _ & C).
  split; [exact A|]. eexists. split; [exact C|].
  split; [apply sorted_labels_perm; [now apply StronglySorted_NoDup_lt|]|now apply np_repeat_sorted].
  exact (labels_in_tids Hr Hk Hg (Hgi s k Ha) Ga).
Qed.
End Reorder.
