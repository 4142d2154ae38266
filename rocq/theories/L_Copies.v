(** Written files pass validation; copies of copies. *)
From Verif Require Import Base PyStr M_Files M_Machinery M_Reader M_Select M_Writer M_Validation S_Reader S_Coll S_Avail S_Open S_Writer S_Validation
  L_Base L_Machinery L_Reader L_GetArray L_Select L_Array2 L_Trains L_Sel2 L_Sel3 L_Hist L_Union L_Open L_Series L_Writer L_Writer2 L_Writer3 L_Writer4 L_Writer5 L_Writer6
  L_Validation.
Set Implicit Arguments.
Unset Strict Implicit.
Local Open Scope string_scope.
Local Open Scope list_scope.

Section W.
Context {V : Type}.
Notation faccess := (faccess V).
Notation dcoll := (dcoll V).
Notation larray := (larray V).
Notation reader := (dcoll -> bool -> string -> string -> res (option larray)).

(** A valid index stays within the rows. *)
Lemma valid_within : forall n rows g co, valid_index n rows g -> ix_more g = IxCount co ->
  forall p, (p < n)%nat -> exists a c, nth_error (ix_first g) p = Some a /\ nth_error co p = Some c /\
    (0 <= a)%Z /\ (0 <= c)%Z /\ (a + c <= Z.of_nat rows)%Z.
Proof.
  intros n rows g co (co' & E & L1 & L2 & V1 & V2 & V3 & V4) E2. assert (co' = co) by congruence. subst co'.
  assert (Hn : forall p, (p < n)%nat -> exists a c, nth_error (ix_first g) p = Some a /\ nth_error co p = Some c).
  { intros p Hp. destruct (nth_error (ix_first g) p) as [a|] eqn:Ea; [|apply nth_error_None in Ea; lia].
    destruct (nth_error co p) as [c|] eqn:Ec; [|apply nth_error_None in Ec; lia]. eauto. }
  assert (Hc : forall p c, nth_error co p = Some c -> (0 <= c)%Z) by (intros p c H; rewrite Forall_forall in V3; apply V3; eapply nth_error_In; eassumption).
  assert (Lo : forall p a, (p < n)%nat -> nth_error (ix_first g) p = Some a -> (0 <= a)%Z).
  { induction p as [|p IH]; intros a Hp Ha; [rewrite (V1 a Ha); lia|].
    destruct (Hn p ltac:(lia)) as (a0 & c0 & Ea & Ec). rewrite (V2 p a0 c0 a Ea Ec Ha). specialize (IH a0 ltac:(lia) Ea). specialize (Hc _ _ Ec). lia. }
  assert (Hi : forall q p a c, (p < n)%nat -> (n - 1 - p = q)%nat -> nth_error (ix_first g) p = Some a -> nth_error co p = Some c -> (a + c <= Z.of_nat rows)%Z).
  { induction q as [|q IH]; intros p a c Hp Hq Ha Hco.
    - assert (p = (n - 1)%nat) by lia. subst p. rewrite (V4 a c Ha Hco). lia.
    - destruct (Hn (S p) ltac:(lia)) as (b & c1 & Eb & Ec1). assert (B := V2 p a c b Ha Hco Eb).
      specialize (IH (S p) b c1 ltac:(lia) ltac:(lia) Eb Ec1). specialize (Hc _ _ Ec1). lia. }
  intros p Hp. destruct (Hn p Hp) as (a & c & Ea & Ec). exists a, c. split; [exact Ea|]. split; [exact Ec|].
  split; [eapply Lo; eassumption|]. split; [eapply Hc; eassumption|]. eapply Hi; eauto.
Qed.
Lemma valid_usable : forall n rows g, valid_index n rows g -> usable_index g n rows.
Proof.
  intros n rows g H. assert (H0 := H). destruct H0 as (co & E & L1 & L2 & V1 & V2 & V3 & V4).
  assert (Ec : forall p, entry_count g p = nth_error co p) by (intros p; unfold entry_count; rewrite E; reflexivity).
  split; [|split].
  - intros p Hp. destruct (valid_within H E Hp) as (a & c & A & B & C). exists a, c. rewrite Ec. tauto.
  - intros a _. apply V1.
  - intros p a c b _ Ha Hc Hb. rewrite Ec in Hc. eapply V2; eassumption.
Qed.
Lemma valid_typed : forall n rows g, valid_index n rows g -> (Z.of_nat rows < 2 ^ 53)%Z -> index_typed g.
Proof.
  intros n rows g H Hr. assert (H0 := H). destruct H0 as (co & E & L1 & L2 & _). unfold index_typed. rewrite E.
  split; apply Forall_forall; intros x Hx; apply In_nth_error in Hx as [p Hp].
  - assert (p < n)%nat by (rewrite <- L1; apply nth_error_Some; congruence).
    destruct (valid_within H E H0) as (a & c & A & B & ? & ? & ?). assert (a = x) by congruence. unfold u64_range. lia.
  - assert (p < n)%nat by (rewrite <- L2; apply nth_error_Some; congruence).
    destruct (valid_within H E H0) as (a & c & A & B & ? & ? & ?). assert (c = x) by congruence. unfold u64_range. lia.
Qed.

(** The entries of the index, each for the rows of a dataset of the file. *)
Lemma written_entries : forall (read : reader) (d : dcoll) name f, reachable d -> distinct_kinds d -> plain_names d -> good_files d ->
  (forall s k, available d s k -> good_index d s k) -> NoDup (dc_tids d) ->
  (forall c s k a, selected_field d (c, s, k) -> read d c s k = Ok (Some a) -> get_array d s k = Ok a) ->
  write_with read name d = Ok f ->
  forall path g, dict_get path (h5_index f) = Some g -> exists p ds, dict_get p (h5_data f) = Some ds /\
    valid_index (List.length (dc_tids d)) (List.length (ds_rows ds)) g.
Proof.
  intros read d name f Hr Hk Hplain Hgf Hgi HN Hread Hf path g Hg. destruct (write_content Hf) as (done & ws & -> & Hw & H1 & _). cbn [ws_file h5_index] in Hg.
  rewrite L_Sel2.dict_get_map with (g := fun p => mk_ix (fst p) (IxCount (snd p))) in Hg. destruct (dict_get path (ws_index ws)) as [[fi co]|] eqn:E; [|discriminate].
  injection Hg as <-. assert (Hw0 := Hw). destruct Hw as (_ & _ & _ & I4 & _). destruct (I4 _ _ E) as ([x a] & Hin & _ & M). cbn [fst snd] in *.
  destruct x as [[c s] k].
  assert (X : fi = make_firsts (label_counts (dc_tids d) (la_labels a)) /\ co = label_counts (dc_tids d) (la_labels a)).
  { unfold ix_made in M. cbn [fst] in M. destruct c.
    - apply control_index_counts in M as [_ M]. now injection M.
    - rewrite generate_index_counts in M. now injection M. }
  destruct X as [-> ->]. eexists. exists (ds_of a). split; [exact (winv_data name Hw0 Hin)|]. cbn [ds_of ds_rows].
  destruct (H1 _ _ Hin) as [S1 S2]. assert (G := Hread _ _ _ _ S1 S2).
  rewrite <- (get_array_lengths G). apply counts_index_valid; [exact HN|].
  apply selected_available in S1 as [A _]; auto. exact (labels_in_tids Hr Hk Hgf (Hgi s k A) G).
Qed.
(** The file opens, and passes the checks. *)
Theorem written_valid : forall (read : reader) (d : dcoll) name f, reachable d -> orderly d ->
  (forall c s k a, selected_field d (c, s, k) -> read d c s k = Ok (Some a) -> get_array d s k = Ok a) ->
  write_with read name d = Ok f ->
  Forall u64_range (dc_tids d) -> (forall p ds, dict_get p (h5_data f) = Some ds -> (Z.of_nat (List.length (ds_rows ds)) < 2 ^ 53)%Z) ->
  exists fa, fa_open f = Ok fa /\ usable_file fa /\ file_checks fa = Ok [].
Proof.
  intros read d name f Hr (Hg & Hgi & Hplain & Hnest & Hord & Hne & Hpos) Hread Hf Hu64 Hsize.
  assert (Hk := proj1 Hg). assert (Hgf := proj1 (proj2 Hg)).
  assert (HN : NoDup (dc_tids d)) by (apply StronglySorted_NoDup_lt, Hord).
  destruct (@reopen_gen V d read name f Hr Hk Hplain Hord Hgf Hgi Hne Hread Hf)
    as (d' & Ed & Hr' & Hk' & Ht' & R1 & R2 & (fa & Hfiles & Ef & Et & Hti & Hsrc) & R3 & R4).
  assert (Ho : fa_open f = Ok fa).
  { unfold open_one in Ed. apply bind_ok in Ed as (fa0 & E0 & Ed). apply mk_collection_inv in Ed as (X & _). rewrite X in Hfiles. now injection Hfiles as <-. }
  assert (Hsel : dc_sel d' = default_selection [fa]).
  { unfold open_one in Ed. rewrite Ho in Ed. cbn [bind] in Ed. now apply mk_collection_inv in Ed as (_ & _ & X & _). }
  assert (Hus : usable_file fa).
  { split.
    - exists (dc_tids d). rewrite Ef. split; [exact Hti|]. exists (dc_tids d), 0%nat. split; [now rewrite app_nil_r|]. split; [apply Hord|exact Hpos].
    - intros s ks k Hs Hks Hin.
      assert (Hs' : In s (fa_sources fa)) by (apply fa_sources_In; auto).
      assert (A' : available d' s k).
      { split; [now apply Hsrc|]. exists ks. split; [|exact Hin]. unfold keys_for_source. rewrite Hsel.
        assert (Hd : In s (dict_keys (default_selection [fa]))) by (apply default_sel_get; exists fa; split; [now left|exact Hs']).
        apply dict_get_keys in Hd as [o Ho']. rewrite Ho'. assert (o = None) by (eapply default_sel_none; eassumption). subst o.
        rewrite Hfiles. unfold source_files. cbn [filter]. apply str_in_iff in Hs'. rewrite Hs'. exact Hks. }
      destruct (R2 Hnest s k A') as [A B]. destruct (R1 s k A B) as (_ & Ec & _).
      assert (Hc : is_control d s = false).
      { rewrite <- Ec. destruct (is_control d' s) eqn:E; [|reflexivity]. exfalso. unfold is_control in E. apply str_in_iff in E.
        destruct (reachable_inv Hr') as [(_ & Hb & _) _]. apply Hb in E as (f0 & F1 & F2 & _). rewrite Hfiles in F1. destruct F1 as [<-|[]].
        apply (Hk' fa fa s); [rewrite Hfiles; now left|rewrite Hfiles; now left|exact F2|exact Hs]. }
      destruct (@written_index V read d name f Hr Hk Hplain Hgf Hgi HN Hread Hf s k A B) as (g & ds & H1 & H2 & H3).
      rewrite Hc in H1, H2. exists g, ds. rewrite Ef, Et. split; [exact H1|]. split; [exact H2|]. now apply valid_usable. }
  exists fa. split; [exact Ho|]. split; [exact Hus|]. apply (usable_passes Ho); [|rewrite Et; exact Hne|exact Hus].
  split; [|split].
  - intros raw E. assert (raw = dc_tids d) by congruence. now subst.
  - intros s g E. destruct (@written_entries read d name f Hr Hk Hplain Hgf Hgi HN Hread Hf s g E) as (p & ds & E1 & E2).
    eapply valid_typed; [exact E2|]. eapply Hsize; exact E1.
  - exact Hsize.
Qed.

Lemma get_keys_NoDup : forall (fa : faccess) s ks, fa_get_keys fa s = Ok ks -> NoDup ks.
Proof.
  assert (G : forall grp (l : list (string * dataset V)) acc, NoDup acc -> NoDup (fold_left (fun acc p =>
      match strip_prefix (grp ++ "/")%string (fst p) with
      | Some rel => set_add (py_replace slash dot rel) acc
      | None => acc
      end) l acc)).
  { induction l as [|p l IH]; intros acc H; simpl; [exact H|]. apply IH. destruct (strip_prefix _ _); [now apply set_add_NoDup|exact H]. }
  intros fa s ks H. unfold fa_get_keys in H. destruct (str_in s (fa_ctrl fa)); [|destruct (str_in s (fa_inst fa)); [|discriminate]];
    injection H as <-; apply G; constructor.
Qed.

(** A copy can be copied again. *)
Theorem copy_orderly : forall (d : dcoll) name f d', reachable d -> orderly d -> write name d = Ok f -> open_one f = Ok d' ->
  reachable d' /\ orderly d' /\ control_complete d' /\ (separate_keys d -> separate_keys d') /\
  (forall s k, available d' s k -> exists a, get_array d' s k = Ok a).
Proof.
  intros d name f d1 Hr Horder Hf Ed1. assert (Ho := Horder). destruct Ho as (Hg & Hgi & Hplain & Hnest & Hord & Hne & Hpos).
  assert (Hk := proj1 Hg). assert (Hgf := proj1 (proj2 Hg)).
  assert (Hread : forall c s k a, selected_field d (c, s, k) -> read_real d c s k = Ok (Some a) -> get_array d s k = Ok a).
  { intros c s k a _ H. destruct (read_real_ok H) as (a' & E & G & _). injection E as ->. exact G. }
  destruct (@reopen_gen V d (@read_real V) name f Hr Hk Hplain Hord Hgf Hgi Hne Hread Hf)
    as (d' & Ed & Hr' & Hk' & Ht' & R1 & R2 & (fa & Hfiles & Ef & Et & Hti & Hsrc) & R3 & R4).
  rewrite Ed in Ed1. injection Ed1 as <-.
  destruct (@reopen_good V (@read_real V) d name f d' Hr Hk Hplain Hnest Hord Hgf Hgi Hne Hpos) as [Hg' Hgi']; [|exact Hf|exact Ed|].
  { intros c s k a _ H. destruct (read_real_ok H) as (a' & E & G & L). injection E as ->. auto. }
  assert (AV : forall s k, available d' s k -> available d s k /\ is_control d' s = is_control d s /\ get_array d' s k = get_array d s k).
  { intros s k A. destruct (R2 Hnest s k A) as [A1 A2]. split; [exact A1|]. apply (R1 s k A1 A2). }
  assert (SR : forall s, In s (dc_sources d') -> In s (dc_sources d)) by (intros s Hs; destruct (R3 s Hs) as (k & [X _] & _); exact X).
  assert (Hb' := proj1 (reachable_inv Hr')).
  assert (Hsf : forall s, In s (dc_sources d') -> In s (fa_sources fa)).
  { intros s Hs. destruct Hb' as (_ & Hc & Hi). unfold dc_sources in Hs. apply set_union_In in Hs. destruct Hs as [Hs|Hs]; [apply Hc in Hs|apply Hi in Hs];
      destruct Hs as (f0 & F1 & F2 & _); rewrite Hfiles in F1; destruct F1 as [<-|[]]; apply fa_sources_In; auto. }
  split; [exact Hr'|]. split; [|split; [|split]].
  - split; [exact Hg'|]. split; [exact Hgi'|]. split; [split|split; [|split; [|split]]].
    + intros s k A. destruct (AV s k A) as [A1 _]. apply (proj1 Hplain s k A1).
    + intros s k s' k' A A' E. destruct (AV s k A) as (A1 & C1 & _). destruct (AV s' k' A') as (A2 & C2 & _).
      apply (proj2 Hplain s k s' k' A1 A2). rewrite <- C1, <- C2. exact E.
    + intros s s' r Hs Hs'. apply Hnest; auto.
    + split; [rewrite Ht'; apply Hord|]. intros s Hs. split.
      * intros f0 F1 _. rewrite Hfiles in F1. destruct F1 as [<-|[]]. rewrite Et. apply Hord.
      * rewrite Hfiles. repeat constructor.
    + now rewrite Ht'.
    + now rewrite Ht'.
  - intros s k t _ [Hs _] Ht. exists fa. split; [rewrite Hfiles; now left|]. split; [now apply Hsf|]. now rewrite Et, <- Ht'.
  - intros [K1 K2]. split.
    + intros s ks H. assert (Hsel : dc_sel d' = default_selection [fa]).
      { unfold open_one in Ed. apply bind_ok in Ed as (fa0 & E0 & Ed). apply mk_collection_inv in Ed as (X & _ & Y & _). rewrite X in Hfiles. now injection Hfiles as <-. }
      unfold keys_for_source in H. rewrite Hsel in H. destruct (dict_get s (default_selection [fa])) as [o|] eqn:E; [|discriminate].
      assert (o = None) by (eapply default_sel_none; eassumption). subst o.
      rewrite Hfiles in H. unfold source_files in H. cbn [filter] in H. destruct (str_in s (fa_sources fa)); [|discriminate].
      eapply get_keys_NoDup; exact H.
    + intros s k k' r A A'. destruct (AV s k A) as [A1 _]. destruct (AV s k' A') as [A2 _]. now apply (K2 s k k' r).
  - intros s k A. destruct (AV s k A) as (A1 & _ & E). rewrite E. destruct (R2 Hnest s k A) as [_ B].
    destruct (write_content Hf) as (done & ws & _ & _ & _ & W). destruct (W (is_control d s) s k) as [W1|(a & W1 & _)]; [apply selected_available; auto|contradiction|].
    exists a. destruct (read_real_ok W1) as (a' & X & G & _). congruence.
Qed.
End W.
