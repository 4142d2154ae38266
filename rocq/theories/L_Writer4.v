(** Written files: the round trip, and when writing succeeds. *)
From Verif Require Import Base PyStr M_Files M_Machinery M_Reader M_Select M_Writer S_Reader S_Coll S_Avail S_Open S_Writer
  L_Base L_Machinery L_Reader L_GetArray L_Select L_Array2 L_Trains L_Sel2 L_Sel3 L_Hist L_Union L_Open L_Series L_Writer L_Writer2 L_Writer3.
Set Implicit Arguments.
Unset Strict Implicit.
Local Open Scope string_scope.
Local Open Scope list_scope.

Section W.
Context {V : Type}.
Notation faccess := (faccess V).
Notation dcoll := (dcoll V).
Notation larray := (larray V).
Notation reader := (dcoll -> bool -> string -> string -> res (option larray)).

Lemma read_real_ok : forall (d : dcoll) c s k o, read_real d c s k = Ok o -> exists a, o = Some a /\ get_array d s k = Ok a /\
  (c = true -> List.length (la_rows a) = List.length (dc_tids d)).
Proof.
  intros d c s k o H. unfold read_real in H. apply bind_ok in H as (a & Ha & H).
  destruct (c && _) eqn:E in H; [discriminate|]. injection H as <-. exists a. split; [reflexivity|]. split; [exact Ha|].
  intros ->. simpl in E. apply negb_false_iff, Nat.eqb_eq in E. exact E.
Qed.

Section Round.
Variables (d : dcoll) (read : reader) (name : string) (f : h5file V).
Hypothesis Hr : reachable d.
Hypothesis Hk : distinct_kinds d.
Hypothesis Hplain : plain_names d.
Hypothesis Hord : in_order d.
Hypothesis Hgf : good_files d.
Hypothesis Hgi : forall s k, available d s k -> good_index d s k.
Hypothesis Hne : dc_tids d <> [].
Hypothesis Hread : forall c s k a, selected_field d (c, s, k) -> read d c s k = Ok (Some a) -> get_array d s k = Ok a.
Hypothesis Hf : write_with read name d = Ok f.

Theorem reopen_gen : exists d', open_one f = Ok d' /\ reachable d' /\ distinct_kinds d' /\ dc_tids d' = dc_tids d /\
  (forall s k, available d s k -> read d (is_control d s) s k <> Ok None ->
     available d' s k /\ is_control d' s = is_control d s /\ get_array d' s k = get_array d s k) /\
  (no_nesting d -> forall s k, available d' s k -> available d s k /\ read d (is_control d s) s k <> Ok None) /\
  (exists fa, dc_files d' = [fa] /\ fa_file fa = f /\ fa_tids fa = dc_tids d /\ h5_trainid f = Some (dc_tids d) /\
   (forall s, In s (fa_sources fa) -> In s (dc_sources d'))) /\
  (forall s, In s (dc_sources d') -> exists k, available d s k /\ read d (is_control d s) s k <> Ok None /\ is_control d' s = is_control d s) /\
  (forall s k a, available d s k -> read d (is_control d s) s k = Ok (Some a) ->
     dict_get (index_key (is_control d s) s k) (h5_index f) =
        Some (mk_ix (make_firsts (label_counts (dc_tids d) (la_labels a))) (IxCount (label_counts (dc_tids d) (la_labels a)))) /\
     dict_get (data_key (is_control d s) s k) (h5_data f) = Some (ds_of a) /\ (is_control d s = true -> NoDup (la_labels a))).
Proof.
  destruct (write_content Hf) as (done & ws & -> & Hw & H1 & H2).
  assert (Hsel : forall x a, In (x, a) done -> selected_field d x) by (intros x a Hin; apply (H1 _ _ Hin)).
  assert (Harr : forall x a, In (x, a) done -> get_array d (snd (fst x)) (snd x) = Ok a).
  { intros [[c s] k] a Hin. destruct (H1 _ _ Hin) as [A B]. cbn [fst snd] in *. eapply Hread; eassumption. }
  destruct (reopen_coll name Hr Hk Hplain Hw Hsel (proj1 Hord))
    as (fa & d' & Ed & Efa & Ef & Et & Hmk & Hfiles & Htids & Hr' & Hk' & Hc' & Hi' & Hfc & Hfi).
  exists d'. split; [exact Ed|]. split; [exact Hr'|]. split; [exact Hk'|]. split; [exact Htids|].
  split; [|split; [|split; [|split]]].
  - intros s k Ha Hn. assert (Hs : selected_field d (is_control d s, s, k)) by (apply selected_available; auto).
    destruct (H2 _ _ _ Hs) as [E|(a & E & Hin)]; [contradiction|].
    destruct (reopen_array Hr Hk Hplain Hw Hsel Harr Hord Hgf Hne Hgi Ed Efa Hin) as (A & B & C).
    split; [exact A|]. split; [exact B|]. rewrite C. symmetry. exact (Harr _ _ Hin).
  - intros Hnest s k Ha. destruct (reopen_only Hr Hk Hplain Hw Hsel Hnest (proj1 Hord) Ed Ha) as [a Hin].
    destruct (H1 _ _ Hin) as [A B]. cbn [fst snd] in B. apply selected_available in A as [A _]; auto. split; [exact A|]. congruence.
  - exists fa. split; [exact Hfiles|]. split; [exact Ef|]. split; [exact Et|]. split; [reflexivity|].
    intros s Hs. apply fa_sources_In in Hs. apply set_union_In. destruct Hs as [Hs|Hs]; [left; apply Hc', Hfc, Hs|right; apply Hi', Hfi, Hs].
  - intros s Hs. apply set_union_In in Hs. assert (X : exists c k a, In ((c, s, k), a) done /\ is_control d' s = c).
    { destruct Hs as [Hs|Hs].
      - assert (Hs' := Hs). apply Hc' in Hs' as (k & a & Hin). exists true, k, a. split; [exact Hin|]. apply str_in_iff. exact Hs.
      - assert (Hs' := Hs). apply Hi' in Hs' as (k & a & Hin). exists false, k, a. split; [exact Hin|]. apply str_in_false. intros Hn.
        apply Hc' in Hn as (k2 & a2 & Hn). apply Hsel in Hn. apply Hsel in Hin. apply selected_available in Hn as [_ Hn]; auto.
        apply selected_available in Hin as [_ Hin]; auto. congruence. }
    destruct X as (c & k & a & Hin & Ec). exists k. destruct (H1 _ _ Hin) as [A B]. cbn [fst snd] in B.
    apply selected_available in A as [A ->]; auto. split; [exact A|]. split; [congruence|exact Ec].
  - intros s k a Ha E. assert (Hs : selected_field d (is_control d s, s, k)) by (apply selected_available; auto).
    destruct (H2 _ _ _ Hs) as [E2|(a' & E2 & Hin)]; [congruence|]. assert (a' = a) by congruence. subst a'.
    destruct (reopen_index name Hr Hk Hplain Hw Hsel Harr Hin) as [Hix Hnd]. split; [exact Hix|]. split; [|exact Hnd].
    exact (winv_data name Hw Hin).
Qed.
End Round.

(** Index validity. *)
Lemma last_start : forall l s p a c, nth_error (firsts_from s l) p = Some a -> nth_error l p = Some c -> S p = List.length l ->
  (a + c = s + zsum l)%Z.
Proof.
  induction l as [|x l IH]; intros s p a c H1 H2 Hp; [destruct p; discriminate|].
  destruct p as [|p]; simpl in *.
  - injection H1 as <-. injection H2 as <-. destruct l; [simpl; lia|discriminate].
  - rewrite (IH _ _ _ _ H1 H2) by lia. lia.
Qed.
Lemma next_start : forall l s p a c b, nth_error (firsts_from s l) p = Some a -> nth_error l p = Some c ->
  nth_error (firsts_from s l) (S p) = Some b -> b = (a + c)%Z.
Proof.
  induction l as [|x l IH]; intros s p a c b H1 H2 H3; [destruct p; discriminate|].
  destruct p as [|p]; simpl in *.
  - injection H1 as <-. injection H2 as <-. destruct l; [discriminate|]. simpl in H3. now injection H3 as <-.
  - eapply IH; eassumption.
Qed.
Lemma counts_index_valid : forall tids labels, NoDup tids -> incl labels tids ->
  valid_index (List.length tids) (List.length labels)
    (mk_ix (make_firsts (label_counts tids labels)) (IxCount (label_counts tids labels))).
Proof.
  intros tids labels HN Hi. exists (label_counts tids labels). cbn [ix_more ix_first]. split; [reflexivity|]. rewrite make_firsts_from.
  split; [now rewrite firsts_from_length, label_counts_length|]. split; [apply label_counts_length|]. split.
  { intros a H. destruct (label_counts tids labels); [discriminate|]. simpl in H. now injection H as <-. }
  split; [intros p a c b; apply next_start|]. split; [apply label_counts_nonneg|].
  intros a c H1 H2. rewrite <- label_counts_sum with (tids := tids) by assumption.
  apply (last_start H1 H2). assert (H := nth_error_Some_lt _ _ H2). rewrite label_counts_length in *. lia.
Qed.

(** Data of one train, and the array. *)
Lemma train_item : forall (d : dcoll) s k a t r, reachable d -> good_collection d -> good_index d s k -> available d s k ->
  get_array d s k = Ok a -> In t (dc_tids d) -> train_from_id d t = Ok (t, r) ->
  item r s k = value_of (rows_labelled t (la_labels a) (la_rows a)).
Proof.
  intros d s k a t r Hr Hg Hi (Hs & ks & Hks & Hin) Ha Ht Hr0.
  destruct (train_from_id_correct Hr Hg Ht) as (r' & E & _ & H2). rewrite Hr0 in E. injection E as <-.
  destruct (H2 s Hs) as (sd & Esd & _ & _ & Hv). unfold item. rewrite Esd. destruct (Hv ks Hks) as (_ & V2 & V3).
  destruct Hg as (Hk & Hgf & _). destruct (@get_array_correct V d s k a Hr Hk Hgf Hi Ha) as [A1 A2].
  destruct (L_Trains.dec_exists_holds d s t) as [[f Hh]|Hn].
  - destruct (V3 k f Hin Hh) as (rows & Hfr & ->). f_equal. destruct Hh as (F1 & F2 & F3).
    exact (file_rows_fun Hfr (A1 f t F1 F2 F3 Ht)).
  - rewrite (V2 k Hin Hn), A2; [reflexivity|]. intros [_ (f & F)]. exact (Hn f F).
Qed.
Lemma item_unavailable : forall (d : dcoll) s k t r, reachable d -> good_collection d -> ~ available d s k ->
  In t (dc_tids d) -> train_from_id d t = Ok (t, r) -> item r s k = None.
Proof.
  intros d s k t r Hr Hg Hn Ht Hr0. destruct (train_from_id_correct Hr Hg Ht) as (r' & E & H1 & H2). rewrite Hr0 in E. injection E as <-.
  unfold item. destruct (dict_get s r) as [sd|] eqn:E; [|reflexivity].
  assert (Hs : In s (dc_sources d)). { apply H1. apply dict_get_keys. eauto. }
  destruct (H2 s Hs) as (sd' & E' & _ & _ & Hv). assert (sd' = sd) by congruence. subst sd'.
  destruct (reachable_inv Hr) as [Hb _]. destruct (keys_for_source_ok Hb Hs) as [ks Hks].
  destruct (Hv ks Hks) as (V1 & _). apply V1. intros Hin. apply Hn. split; [exact Hs|]. eauto.
Qed.

Lemma zlength_cons_pos : forall A (l : list A), l <> [] -> (0 < List.length l)%nat.
Proof. intros A [|x l] H; [congruence|simpl; lia]. Qed.

Lemma label_counts_all : forall tids, NoDup tids -> forall labels, NoDup labels -> incl labels tids -> List.length labels = List.length tids ->
  label_counts tids labels = repeat 1%Z (List.length tids).
Proof.
  intros tids HN labels HNl Hi Hl.
  assert (Hi' : incl tids labels) by (apply NoDup_length_incl; [assumption|lia|assumption]).
  unfold label_counts.
  assert (G : forall l, incl l labels -> map (fun t => count_tid labels t) l = repeat 1%Z (List.length l)); [|apply G, Hi'].
  induction l as [|t l IH]; intros H; [reflexivity|]. simpl. f_equal; [|apply IH; intros x Hx; apply H; now right].
  assert (Ht : In t labels) by (apply H; now left). unfold count_tid. clear -Ht HNl. change 1%Z with (Z.of_nat 1). f_equal.
  induction labels as [|y l IH]; [destruct Ht|]. inversion HNl as [|? ? N1 N2]; subst. simpl. destruct (Z.eqb_spec t y) as [->|Ny].
  - simpl. f_equal. assert (E : filter (fun x => (y =? x)%Z) l = []); [|now rewrite E]. clear IH N2 Ht HNl.
    induction l as [|z l IH]; [reflexivity|]. simpl. destruct (Z.eqb_spec y z) as [->|Nz]; [exfalso; apply N1; now left|].
    apply IH. intros X. apply N1. now right.
  - apply IH; [exact N2|]. destruct Ht as [Ht|Ht]; [congruence|exact Ht].
Qed.
Lemma firsts_ones : forall n s p, (p < n)%nat -> nth_error (firsts_from s (repeat 1%Z n)) p = Some (s + Z.of_nat p)%Z.
Proof.
  induction n as [|n IH]; intros s p H; [lia|]. destruct p as [|p]; simpl; [f_equal; lia|]. rewrite IH by lia. f_equal. lia.
Qed.

Lemma count_rows_labelled : forall t labels (rows : list V), List.length labels = List.length rows ->
  count_tid labels t = Z.of_nat (List.length (rows_labelled t labels rows)).
Proof.
  intros t. unfold count_tid, rows_labelled. induction labels as [|x l IH]; intros [|r rows] H; try discriminate; [reflexivity|].
  simpl. rewrite (Z.eqb_sym x t). injection H as H. specialize (IH rows H). destruct (t =? x)%Z; [|exact IH]. cbn [map List.length]. rewrite !Nat2Z.inj_succ. f_equal. exact IH.
Qed.
Lemma label_count_u64 : forall (d : dcoll) s k a t, reachable d -> distinct_kinds d -> good_files d -> good_index d s k ->
  get_array d s k = Ok a -> (count_tid (la_labels a) t < 2 ^ 64)%Z.
Proof.
  intros d s k a t Hr Hk Hgf Hgi Ha. rewrite (count_rows_labelled t (get_array_lengths Ha)).
  destruct (@get_array_correct V d s k a Hr Hk Hgf Hgi Ha) as [A1 A2].
  destruct (in_dec Z.eq_dec t (dc_tids d)) as [Ht|Ht]; [|rewrite A2 by tauto; reflexivity].
  destruct (L_Trains.dec_exists_holds d s t) as [[f (F1 & F2 & F3)]|Hn]; [|rewrite A2; [reflexivity|]; intros [_ [f F]]; exact (Hn f F)].
  destruct (A1 f t F1 F2 F3 Ht) as (raw & p & g & first & count & ds & R1 & R2 & R3 & R4 & R5 & R6 & R7 & ->).
  destruct (Hgi f F1 F2) as (g' & G1 & ((G2 & G3) & _) & _). assert (g' = g) by congruence. subst g'.
  assert (Hp : (p < List.length (fa_tids f))%nat).
  { destruct (reachable_inv Hr) as [_ Ho]. rewrite Forall_forall in Ho. unfold good_files in Hgf. rewrite Forall_forall in Hgf.
    destruct (opened_tids (Ho f F1) (Hgf f F1)) as (pad & E & _).
    apply In_nth_error in F3 as [q Hq]. assert (Hlt := nth_error_Some_lt _ _ Hq). destruct (Nat.lt_ge_cases p (List.length (fa_tids f))) as [L|L]; [exact L|exfalso].
    apply (R3 q); [lia|]. rewrite R1 in E. injection E as ->. rewrite nth_error_app1 by exact Hlt. exact Hq. }
  destruct (G3 p Hp) as (a0 & c0 & E1 & E2 & _ & [_ E3]). assert (c0 = count) by congruence. subst c0. rewrite firstn_length. lia.
Qed.

(** After write(): the collection from the new file is good. *)
Theorem reopen_good : forall (read : reader) (d : dcoll) name f d', reachable d -> distinct_kinds d -> plain_names d -> no_nesting d -> in_order d -> good_files d ->
  (forall s k, available d s k -> good_index d s k) -> dc_tids d <> [] -> Forall (fun t => 0 < t)%Z (dc_tids d) ->
  (forall c s k a, selected_field d (c, s, k) -> read d c s k = Ok (Some a) -> get_array d s k = Ok a /\ (c = true -> List.length (la_rows a) = List.length (dc_tids d))) ->
  write_with read name d = Ok f -> open_one f = Ok d' ->
  good_collection d' /\ (forall s k, available d' s k -> good_index d' s k).
Proof.
  intros read d name f d1 Hr Hk Hplain Hnest Hord Hgf Hgi Hne Hpos Hread Hf Ed1.
  destruct (@reopen_gen d read name f Hr Hk Hplain Hord Hgf Hgi Hne) as (d' & Ed & Hr' & Hk' & Ht' & R1 & R2 & (fa & Hfiles & Ef & Et & Hti & Hsrc) & R3 & R4); [|exact Hf|].
  { intros c s k a H1 H2. exact (proj1 (Hread c s k a H1 H2)). }
  rewrite Ed in Ed1. injection Ed1 as <-. destruct (reachable_inv Hr') as [Hb' Ho'].
  assert (Hlab : forall s k, available d' s k -> available d s k /\ is_control d' s = is_control d s /\ exists a, get_array d s k = Ok a /\
     read d (is_control d s) s k = Ok (Some a) /\ incl (la_labels a) (dc_tids d)).
  { intros s k Ha. destruct (R2 Hnest s k Ha) as [A B]. split; [exact A|]. split; [apply (R1 s k A B)|].
    destruct (write_content Hf) as (done & ws & _ & _ & _ & W). destruct (W (is_control d s) s k) as [W1|(a & W1 & _)]; [apply selected_available; auto|contradiction|].
    assert (G : get_array d s k = Ok a) by (apply (Hread (is_control d s)); [apply selected_available; auto|exact W1]). exists a. split; [exact G|]. split; [exact W1|].
    exact (labels_in_tids Hr Hk Hgf (Hgi s k A) G). }
  assert (HN : NoDup (dc_tids d)) by (apply StronglySorted_NoDup_lt, Hord).
  assert (GI : forall s k, available d' s k -> good_index d' s k).
  { intros s k Ha f0 Hf0 Hs0. rewrite Hfiles in Hf0. destruct Hf0 as [<-|[]]. destruct (Hlab s k Ha) as (A & Ec & a & Ga & Rd & Hinc).
    destruct (R4 s k a A Rd) as (Hix & Hda & _). fold (is_control d' s). rewrite Ef, Ec, Hix, Hda. eexists. split; [reflexivity|].
    destruct (counts_index_valid HN Hinc) as (co & E & L1 & L2 & V1 & V2 & V3 & V4). cbn [ix_more ix_first] in *. injection E as <-.
    rewrite Et. split; [split|].
    - split; [exact I|]. intros p Hp. unfold entry_count. cbn [ix_more ix_first]. rewrite <- L1 in Hp. destruct (nth_error_ex _ Hp) as [x Hx].
      rewrite L1, <- L2 in Hp. destruct (nth_error_ex _ Hp) as [c Hc]. exists x, c. split; [exact Hx|]. split; [exact Hc|].
      rewrite Forall_forall in V3. assert (Hc0 := V3 c (nth_error_In _ _ Hc)). split.
      + rewrite make_firsts_from in Hx. clear -Hx. assert (G : forall l s0 q, Forall (fun c => 0 <= c)%Z l -> (0 <= s0)%Z -> nth_error (firsts_from s0 l) q = Some x -> (0 <= x)%Z).
        { induction l as [|y l IH]; intros s0 q Hl Hs0 H; [destruct q; discriminate|]. inversion Hl; subst. destruct q as [|q]; simpl in H; [injection H as <-; lia|].
          eapply IH; [eassumption| |exact H]. lia. }
        eapply (G _ 0%Z p (label_counts_nonneg _ _)); [lia|exact Hx].
      + split; [exact Hc0|].
        unfold label_counts in Hc. rewrite nth_error_map in Hc. destruct (nth_error (dc_tids d) p) as [t|]; [|discriminate]. injection Hc as <-.
        apply (label_count_u64 t Hr Hk Hgf (Hgi s k A) Ga).
    - intros p x c b _. unfold entry_count. cbn [ix_more ix_first]. apply V2.
    - intros ds Hd. injection Hd as <-. intros p x c Hp H1 H2. unfold entry_count in H2. cbn [ix_more ix_first ds_of ds_rows] in *. rewrite make_firsts_from in H1.
      rewrite <- (get_array_lengths Ga), <- (label_counts_sum HN Hinc). clear -H1 H2.
      assert (G : forall l s0 q, Forall (fun c => 0 <= c)%Z l -> nth_error (firsts_from s0 l) q = Some x -> nth_error l q = Some c -> (x + c <= s0 + zsum l)%Z).
      { induction l as [|y l IH]; intros s0 q Hl E1 E2; [destruct q; discriminate|]. inversion Hl; subst.
        assert (0 <= zsum l)%Z. { clear -H4. induction H4; simpl; lia. }
        destruct q as [|q]; simpl in *; [injection E1 as <-; injection E2 as <-; lia|]. specialize (IH _ _ H4 E1 E2). lia. }
      specialize (G _ 0%Z p (label_counts_nonneg _ _) H1 H2). lia. }
  split; [|exact GI].
  split; [exact Hk'|]. split; [|split].
  - unfold good_files. rewrite Hfiles. constructor; [|constructor]. exists (dc_tids d), 0%nat. rewrite Ef, Hti. simpl. rewrite app_nil_r. auto.
  - intros s Hs f0 g Hf0 Hs0 Hg. rewrite Hfiles in Hf0. destruct Hf0 as [<-|[]].
    assert (Hs1 : In s (dc_sources d')) by (apply set_union_In; now left).
    destruct (R3 s Hs1) as (k & A & Hn & Ec). destruct (R1 s k A Hn) as (A' & _ & _).
    destruct (Hlab s k A') as (_ & _ & a & Ga & Rd & Hinc). destruct (R4 s k a A Rd) as (Hix & _ & Hnd).
    assert (Hc : is_control d s = true) by (rewrite <- Ec; apply str_in_iff; exact Hs).
    rewrite Hc in *. specialize (Hnd eq_refl). unfold index_key in Hix. rewrite Ef in Hg. rewrite Hg in Hix. injection Hix as ->.
    assert (Hl : List.length (la_rows a) = List.length (dc_tids d)) by (apply (Hread true s k); [apply selected_available; auto|exact Rd|reflexivity]).
    rewrite (@label_counts_all _ HN _ Hnd Hinc) by (rewrite (get_array_lengths Ga); exact Hl).
    intros p Hp. rewrite Et in Hp. unfold entry_count. cbn [ix_first ix_more]. rewrite make_firsts_from, firsts_ones by exact Hp.
    split; [f_equal; lia|]. now apply nth_error_repeat.
  - intros s k ks Hs Hks Hin. assert (Ha : available d' s k) by (split; [exact Hs|eauto]). split.
    + intros f0 Hf0 Hs0. destruct (GI s k Ha f0 Hf0 Hs0) as (g & G1 & [G2 _] & _). eauto.
    + destruct (Hlab s k Ha) as (A & Ec & a & Ga & Rd & Hinc). destruct (R4 s k a A Rd) as (Hix & Hda & _).
      exists (la_dtype a), (la_item a). intros f0 Hf0 Hs0. rewrite Hfiles in Hf0. destruct Hf0 as [<-|[]]. fold (is_control d' s). rewrite Ef, Ec, Hix, Hda.
      do 2 eexists. split; [reflexivity|]. split; [reflexivity|]. split; [reflexivity|]. split; [reflexivity|].
      intros p x c Hp H1 H2. unfold entry_count in H2. cbn [ix_more ix_first ds_of ds_rows] in *. rewrite make_firsts_from in H1.
      rewrite <- (get_array_lengths Ga), <- (label_counts_sum HN Hinc). clear -H1 H2.
      assert (G : forall l s0 q, Forall (fun c => 0 <= c)%Z l -> nth_error (firsts_from s0 l) q = Some x -> nth_error l q = Some c -> (x + c <= s0 + zsum l)%Z).
      { induction l as [|y l IH]; intros s0 q Hl E1 E2; [destruct q; discriminate|]. inversion Hl; subst.
        assert (0 <= zsum l)%Z. { clear -H4. induction H4; simpl; lia. }
        destruct q as [|q]; simpl in *; [injection E1 as <-; injection E2 as <-; lia|]. specialize (IH _ _ H4 E1 E2). lia. }
      specialize (G _ 0%Z p (label_counts_nonneg _ _) H1 H2). lia.
Qed.

(** The whole round trip. *)
Theorem round_trip : forall (read : reader) (d : dcoll) name f, reachable d -> orderly d ->
  (forall c s k o, selected_field d (c, s, k) -> read d c s k = Ok o -> exists a, get_array d s k = Ok a /\ (o = Some a \/ o = None /\ la_rows a = [])) ->
  write_with read name d = Ok f ->
  exists d', open_one f = Ok d' /\ reachable d' /\ dc_tids d' = dc_tids d /\
  (forall s k, available d' s k <-> available d s k /\ read d (is_control d s) s k <> Ok None) /\
  (forall s k, available d' s k -> is_control d' s = is_control d s /\ get_array d' s k = get_array d s k) /\
  ((forall s k a, available d s k -> is_control d s = true -> get_array d s k = Ok a -> List.length (la_rows a) = List.length (dc_tids d)) ->
   forall t r, In t (dc_tids d) -> train_from_id d t = Ok (t, r) ->
   exists r', train_from_id d' t = Ok (t, r') /\ forall s k, item r' s k = item r s k).
Proof.
  intros read d name f Hr (Hg & Hgi & Hplain & Hnest & Hord & Hne & Hpos) Hread Hf. assert (Hk := proj1 Hg). assert (Hgf := proj1 (proj2 Hg)).
  assert (Hread1 : forall c s k a, selected_field d (c, s, k) -> read d c s k = Ok (Some a) -> get_array d s k = Ok a).
  { intros c s k a H1 H2. destruct (Hread c s k _ H1 H2) as (a' & E & [X|[X _]]); [injection X as <-; exact E|discriminate]. }
  destruct (@reopen_gen d read name f Hr Hk Hplain Hord Hgf Hgi Hne Hread1 Hf)
    as (d' & Ed & Hr' & Hk' & Ht' & R1 & R2 & _ & _ & _).
  assert (AV : forall s k, available d' s k <-> available d s k /\ read d (is_control d s) s k <> Ok None).
  { intros s k. split; [apply (R2 Hnest)|]. intros [A B]. apply (R1 s k A B). }
  exists d'. split; [exact Ed|]. split; [exact Hr'|]. split; [exact Ht'|]. split; [exact AV|].
  split. { intros s k A. apply AV in A as [A B]. apply (R1 s k A B). }
  intros Hc t r Ht Htr.
  destruct (@reopen_good read d name f d' Hr Hk Hplain Hnest Hord Hgf Hgi Hne Hpos) as [Hg' Hgi']; [|exact Hf|exact Ed|].
  { intros c s k a H1 H2. assert (G := Hread1 c s k a H1 H2). split; [exact G|]. intros ->. apply selected_available in H1 as [H1 Ec]; auto. eapply Hc; [exact H1|auto|exact G]. }
  assert (Ht2 : In t (dc_tids d')) by (rewrite Ht'; exact Ht).
  destruct (train_from_id_correct Hr' Hg' Ht2) as (r' & E' & _ & _). exists r'. split; [exact E'|]. intros s k.
  destruct (write_content Hf) as (done & ws & _ & _ & _ & W).
  assert (D : available d s k \/ ~ available d s k).
  { destruct (in_dec string_dec s (dc_sources d)) as [Hs|Hs]; [|right; intros [X _]; contradiction].
    destruct (keys_for_source_ok (proj1 (reachable_inv Hr)) Hs) as [ks Hks]. destruct (in_dec string_dec k ks) as [Hin|Hin].
    - left. split; [exact Hs|]. eauto.
    - right. intros (_ & ks' & E & H). congruence. }
  destruct D as [A|NA].
  - assert (Sf : selected_field d (is_control d s, s, k)) by (apply selected_available; auto).
    destruct (W _ _ _ Sf) as [E|(a & E & _)].
    + destruct (Hread _ _ _ _ Sf E) as (a & G & [X|[_ X]]); [discriminate|].
      rewrite (train_item Hr Hg (Hgi s k A) A G Ht Htr), X.
      rewrite (item_unavailable (s := s) (k := k) Hr' Hg' (t := t) (r := r')); [|intros A'; apply AV in A' as [_ A']; contradiction|exact Ht2|exact E'].
      unfold rows_labelled. destruct (la_labels a); reflexivity.
    + assert (G := Hread1 _ _ _ _ Sf E). assert (Nn : read d (is_control d s) s k <> Ok None) by congruence.
      destruct (R1 s k A Nn) as (A' & _ & G'). rewrite G in G'.
      rewrite (train_item Hr Hg (Hgi s k A) A G Ht Htr). apply (train_item Hr' Hg' (Hgi' s k A') A' G' Ht2 E').
  - rewrite (item_unavailable Hr Hg NA Ht Htr). apply (item_unavailable Hr' Hg' (t := t)); [|exact Ht2|exact E']. intros A'. apply AV in A' as [A' _]. contradiction.
Qed.

(** The index entries in the file. *)
Theorem written_index : forall (read : reader) (d : dcoll) name f, reachable d -> distinct_kinds d -> plain_names d -> good_files d ->
  (forall s k, available d s k -> good_index d s k) -> NoDup (dc_tids d) ->
  (forall c s k a, selected_field d (c, s, k) -> read d c s k = Ok (Some a) -> get_array d s k = Ok a) ->
  write_with read name d = Ok f ->
  forall s k, available d s k -> read d (is_control d s) s k <> Ok None ->
  exists g ds, dict_get (index_key (is_control d s) s k) (h5_index f) = Some g /\
    dict_get (data_key (is_control d s) s k) (h5_data f) = Some ds /\
    valid_index (List.length (dc_tids d)) (List.length (ds_rows ds)) g.
Proof.
  intros read d name f Hr Hk Hplain Hgf Hgi HN Hread Hf s k A Nn. destruct (write_content Hf) as (done & ws & -> & Hw & H1 & H2).
  assert (Sf : selected_field d (is_control d s, s, k)) by (apply selected_available; auto).
  destruct (H2 _ _ _ Sf) as [E|(a & E & Hin)]; [contradiction|].
  assert (Hsel : forall x a, In (x, a) done -> selected_field d x) by (intros x b Hx; apply (H1 _ _ Hx)).
  assert (Harr : forall x a, In (x, a) done -> get_array d (snd (fst x)) (snd x) = Ok a).
  { intros [[c' s'] k'] b Hx. destruct (H1 _ _ Hx) as [S1 S2]. cbn [fst snd] in *. eapply Hread; eassumption. }
  destruct (reopen_index name Hr Hk Hplain Hw Hsel Harr Hin) as [Hix _].
  eexists. exists (ds_of a). split; [exact Hix|]. split; [exact (winv_data name Hw Hin)|]. cbn [ds_of ds_rows].
  assert (G := Harr _ _ Hin). cbn [fst snd] in G. rewrite <- (get_array_lengths G). apply counts_index_valid; [exact HN|].
  exact (labels_in_tids Hr Hk Hgf (Hgi s k A) G).
Qed.
(** Without any hypothesis: each entry is contiguous from 0, one per train. *)
Theorem written_index_shape : forall (read : reader) (d : dcoll) name f, write_with read name d = Ok f ->
  forall path g, dict_get path (h5_index f) = Some g -> exists n, valid_index (List.length (dc_tids d)) n g.
Proof.
  intros read d name f Hf path g Hg. destruct (write_content Hf) as (done & ws & -> & Hw & _ & _). cbn [ws_file h5_index] in Hg.
  rewrite L_Sel2.dict_get_map with (g := fun p => mk_ix (fst p) (IxCount (snd p))) in Hg. destruct (dict_get path (ws_index ws)) as [[fi co]|] eqn:E; [|discriminate].
  injection Hg as <-. destruct Hw as (_ & _ & _ & I4 & _). destruct (I4 _ _ E) as ([x a] & _ & _ & M). cbn [fst snd] in *.
  assert (X : fi = make_firsts (label_counts (dc_tids d) (la_labels a)) /\ co = label_counts (dc_tids d) (la_labels a)).
  { destruct x as [[c s] k]. unfold ix_made in M. cbn [fst] in M. destruct c.
    - apply control_index_counts in M as [_ M]. now injection M.
    - rewrite generate_index_counts in M. now injection M. }
  destruct X as [-> ->]. exists (Z.to_nat (zsum (label_counts (dc_tids d) (la_labels a)))), (label_counts (dc_tids d) (la_labels a)).
  cbn [ix_more ix_first]. split; [reflexivity|]. rewrite make_firsts_from.
  split; [now rewrite firsts_from_length, label_counts_length|]. split; [apply label_counts_length|]. split.
  { intros y H. destruct (label_counts (dc_tids d) (la_labels a)); [discriminate|]. simpl in H. now injection H as <-. }
  split; [intros p y c b; apply next_start|]. split; [apply label_counts_nonneg|].
  intros y c H1 H2. rewrite Z2Nat.id by (apply zsum_nonneg, label_counts_nonneg).
  apply (last_start H1 H2). assert (H := nth_error_Some_lt _ _ H2). rewrite label_counts_length in *. lia.
Qed.
End W.
