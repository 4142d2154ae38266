(** Making the detector object: what the constructor returns. *)
From Verif Require Import Base PyStr M_Files M_Machinery M_Reader M_Glob M_Select M_Series M_Stacking M_Components
  S_Reader S_Coll S_Glob S_Select S_Avail S_Series S_Stacking S_Components
  L_Base L_Machinery L_Reader L_GetArray L_Select L_Trains L_SelTrains L_Array2 L_Glob L_Sel2 L_Sel3 L_Hist L_Series L_Stacking L_Writer5 L_Components6.
Set Implicit Arguments. Unset Strict Implicit.
Local Open Scope string_scope.
Local Open Scope list_scope.

Lemma zdedup_one : forall l c, zdedup l = [c] <-> In c l /\ forall x, In x l -> x = c.
Proof.
  intros l c. split.
  - intros H. assert (Hin : forall x, In x l <-> x = c).
    { intros x. rewrite <- (zdedup_In x l), H. simpl. intuition. }
    split; [now apply Hin|]. intros x Hx. now apply Hin.
  - intros [H1 H2]. pose proof (zdedup_NoDup l) as HN.
    assert (Hin : forall x, In x (zdedup l) <-> x = c).
    { intros x. rewrite zdedup_In. split; [auto|now intros ->]. }
    destruct (zdedup l) as [|a [|b r]].
    + exfalso. apply (proj2 (Hin c) eq_refl).
    + f_equal. apply Hin. now left.
    + exfalso. assert (a = c) by (apply Hin; now left). assert (b = c) by (apply Hin; right; now left). subst.
      inversion HN; subst. apply H3. now left.
Qed.
Lemma ser_count_spec : forall t (ser : list (Z * Z)), NoDup (map fst ser) ->
  (forall c, In (t, c) ser -> ser_count t ser = c) /\ ((forall c, ~ In (t, c) ser) -> ser_count t ser = 0%Z).
Proof.
  intros t ser HN. unfold ser_count. split.
  - intros c H. destruct (find _ ser) as [[t' c']|] eqn:E.
    + apply find_some in E as [E1 E2]. simpl in *. apply Z.eqb_eq in E2. subst t'.
      clear -HN H E1. induction ser as [|[a b] ser IH]; [destruct H|]. simpl in HN. inversion HN; subst.
      destruct H as [H|H], E1 as [E|E].
      * congruence.
      * exfalso. injection H as -> ->. apply H2. apply in_map_iff. exists (t, c'). auto.
      * exfalso. injection E as -> ->. apply H2. apply in_map_iff. exists (t, c). auto.
      * auto.
    + exfalso. pose proof (find_none _ _ E (t, c) H) as X. simpl in X. apply Z.eqb_neq in X. congruence.
  - intros H. destruct (find _ ser) as [[t' c']|] eqn:E; [|reflexivity].
    apply find_some in E as [E1 E2]. simpl in *. apply Z.eqb_eq in E2. subst t'. destruct (H c' E1).
Qed.

Section C.
Context {V : Type}.
Notation faccess := (faccess V).
Notation dcoll := (dcoll V).
Context (d : dcoll) (name : string) (modules : option (list Z)).
Context (R : reachable d) (K : distinct_kinds d) (G : good_files d) (C : countable d name modules).
Let srcs := module_list d name modules.

Section T.
Context (ser : string * Z -> list (Z * Z)).
Context (Hser : forall p, In p srcs -> NoDup (map fst (ser p)) /\
   forall t c, In (t, c) (ser p) <-> In t (dc_tids d) /\ frames_in d (fst p) t c).
Let table := map (fun t => (t, map (ser_count t) (map ser srcs))) (zsort_set (flat_map (map fst) (map ser srcs))).

Lemma table_trains : forall t, In t (zsort_set (flat_map (map fst) (map ser srcs))) <->
  In t (dc_tids d) /\ exists s n c, is_module_of d name modules s n /\ frames_in d s t c.
Proof.
  intros t. rewrite zsort_set_In, in_flat_map. split.
  - intros (l & Hl & Ht). apply in_map_iff in Hl as ([s n] & <- & Hp). apply in_map_iff in Ht as ([t' c] & E & Ht). simpl in E. subst t'.
    apply (Hser Hp) in Ht as [H1 H2]. split; [assumption|]. exists s, n, c. split; [now apply module_list_In|exact H2].
  - intros (H1 & s & n & c & Hm & Hf). apply module_list_In in Hm. exists (ser (s, n)). split; [now apply in_map|].
    apply in_map_iff. exists (t, c). split; [reflexivity|]. now apply (Hser Hm).
Qed.
Lemma ser_value : forall s n t c, is_module_of d name modules s n -> In t (dc_tids d) -> frames_in d s t c -> ser_count t (ser (s, n)) = c.
Proof.
  intros s n t c Hm Ht Hf. apply module_list_In in Hm. destruct (Hser Hm) as [H1 H2].
  apply (ser_count_spec t H1). now apply H2.
Qed.
Lemma ser_frames : forall s n t, is_module_of d name modules s n -> ser_count t (ser (s, n)) <> 0%Z ->
  In t (dc_tids d) /\ frames_in d s t (ser_count t (ser (s, n))).
Proof.
  intros s n t Hm H. apply module_list_In in Hm. destruct (Hser Hm) as [H1 H2]. destruct (ser_count_spec t H1) as [S1 S2].
  destruct (find (fun p => (fst p =? t)%Z) (ser (s, n))) as [[t' c]|] eqn:E.
  - apply find_some in E as [E1 E2]. simpl in E2. apply Z.eqb_eq in E2. subst t'. rewrite (S1 _ E1). apply H2 in E1. exact E1.
  - exfalso. apply H. unfold ser_count. now rewrite E.
Qed.
Lemma fpt_spec : forall c, frames_per_train table = Ok c <-> frames_uniform d name modules c.
Proof.
  intros c. unfold frames_per_train.
  assert (Hall : forall x, In x (filter (fun c => negb (c =? 0)%Z) (flat_map snd table)) <->
    x <> 0%Z /\ exists s n t, is_module_of d name modules s n /\ In t (dc_tids d) /\ frames_in d s t x).
  { intros x. rewrite filter_In, negb_true_iff, Z.eqb_neq, in_flat_map. split.
    - intros [(row & Hrow & Hx) H0]. split; [assumption|]. apply in_map_iff in Hrow as (t & <- & Ht). simpl in Hx.
      rewrite map_map in Hx. apply in_map_iff in Hx as ([s n] & <- & Hp). apply module_list_In in Hp. exists s, n, t.
      split; [assumption|]. now apply ser_frames.
    - intros [H0 (s & n & t & Hm & Ht & Hf)]. split; [|assumption]. exists (t, map (ser_count t) (map ser srcs)). split.
      + apply in_map_iff. exists t. split; [reflexivity|]. apply table_trains. split; [assumption|]. exists s, n, x. auto.
      + simpl. rewrite map_map. apply in_map_iff. exists (s, n). split; [now apply ser_value|now apply module_list_In]. }
  transitivity (zdedup (filter (fun c => negb (c =? 0)%Z) (flat_map snd table)) = [c]).
  { destruct (zdedup _) as [|a [|b r]]; split; intros H; try discriminate; congruence. }
  rewrite zdedup_one. unfold frames_uniform. split.
  - intros [H1 H2]. apply Hall in H1 as [H0 Hex]. split; [|split; [exact Hex|]].
    + destruct Hex as (s & n & t & Hm & Ht & Hf). pose proof (@frames_in_nonneg V d name modules R G C s n t c Hm Hf). lia.
    + intros s n t c' Hm Ht Hf. destruct (Z.eq_dec c' 0); [now left|]. right. apply H2. apply Hall. split; [assumption|]. exists s, n, t. auto.
  - intros (H0 & Hex & Hu). split; [apply Hall; split; [lia|exact Hex]|].
    intros x Hx. apply Hall in Hx as (Hn & s & n & t & Hm & Ht & Hf). destruct (Hu s n t x Hm Ht Hf); [contradiction|assumption].
Qed.
Lemma fpt_err : (forall c, ~ frames_uniform d name modules c) -> frames_per_train table = Err EValueError.
Proof.
  intros H. pose proof fpt_spec as F. unfold frames_per_train in *.
  destruct (zdedup _) as [|a [|b r]]; try reflexivity. exfalso. apply (H a). now apply F.
Qed.
Lemma trains_spec : forall min t, In t (trains_with_modules table min) <-> detector_train d name modules min t.
Proof.
  intros min t. unfold trains_with_modules, detector_train. rewrite in_map_iff.
  set (pos := fun p : string * Z => (0 <? ser_count t (ser p))%Z).
  assert (Hlen : List.length (filter (fun c => (0 <? c)%Z) (map (ser_count t) (map ser srcs))) = List.length (filter pos srcs)).
  { rewrite map_map. unfold pos. clear. induction srcs as [|p l IH]; simpl; [reflexivity|].
    destruct (0 <? ser_count t (ser p))%Z; simpl; now rewrite IH. }
  assert (Hpos : forall s n, In (s, n) (filter pos srcs) <-> is_module_of d name modules s n /\ exists c, In t (dc_tids d) /\ frames_in d s t c /\ (0 < c)%Z).
  { intros s n. rewrite filter_In, <- (module_list_In d name modules s n). fold srcs. unfold pos. rewrite Z.ltb_lt. split.
    - intros [Hp Hc]. split; [assumption|]. apply module_list_In in Hp. destruct (@ser_frames s n t Hp ltac:(lia)). eauto.
    - intros [Hp (c & Ht & Hf & Hc)]. split; [assumption|]. apply module_list_In in Hp. now rewrite (ser_value Hp Ht Hf). }
  split.
  - intros ([t' row] & E & H). simpl in E. subst t'. apply filter_In in H as [Hrow Hmin]. apply in_map_iff in Hrow as (t' & E & Ht).
    injection E as -> <-. simpl in Hmin. rewrite Hlen in Hmin. apply Z.leb_le in Hmin. apply table_trains in Ht as [H1 H2].
    split; [assumption|]. split; [assumption|]. exists (map fst (filter pos srcs)). rewrite map_length. split; [|split; [assumption|]].
    + pose proof (module_list_nodup name modules R) as HN. fold srcs in HN. clear -HN. induction srcs as [|p l IH]; [constructor|].
      simpl in *. inversion HN; subst. destruct (pos p); simpl; [|auto]. constructor; [|auto].
      intros X. apply H1. apply in_map_iff in X as (q & E & X). rewrite <- E. apply in_map. apply filter_In in X. tauto.
    + intros s Hs. apply in_map_iff in Hs as ([s' n] & <- & Hp). apply Hpos in Hp as [Hm (c & _ & Hc)]. eauto.
  - intros (H1 & H2 & l & HN & Hl & Hall). exists (t, map (ser_count t) (map ser srcs)). split; [reflexivity|].
    apply filter_In. split; [apply in_map_iff; exists t; split; [reflexivity|now apply table_trains]|].
    simpl. rewrite Hlen. apply Z.leb_le. transitivity (Z.of_nat (List.length l)); [assumption|].
    apply inj_le. rewrite <- (map_length fst (filter pos srcs)). apply NoDup_incl_length; [assumption|].
    intros s Hs. destruct (Hall s Hs) as [[n Hn] (c & Hf & Hc)]. apply in_map_iff. exists (s, n). split; [reflexivity|].
    apply Hpos. split; [assumption|]. eauto.
Qed.
Lemma trains_sorted : forall min, StronglySorted Z.lt (trains_with_modules table min).
Proof.
  intros min. unfold trains_with_modules, table. pose proof (zsort_set_sorted (flat_map (map fst) (map ser srcs))) as H.
  induction H as [|t l H IH Ht]; simpl; [constructor|]. destruct (_ <=? _)%Z; simpl; [|exact IH]. constructor; [exact IH|].
  rewrite Forall_forall in *. intros x Hx. apply in_map_iff in Hx as ([t' row] & <- & Hx). apply filter_In in Hx as [Hx _].
  apply in_map_iff in Hx as (t'' & E & Hx). injection E as <- <-. auto.
Qed.
Lemma table_ok : count_table (map ser srcs) = Ok table.
Proof.
  unfold count_table. rewrite (proj2 (forallb_forall _ _)); [reflexivity|]. intros l Hl. apply in_map_iff in Hl as (p & <- & Hp).
  apply z_unique_iff. now apply (Hser Hp).
Qed.
End T.

Lemma open_main : forall tag min, srcs <> [] -> exists data ser, let table := map (fun t => (t, map (ser_count t) (map ser srcs))) (zsort_set (flat_map (map fst) (map ser srcs))) in
    (forall p, In p srcs -> NoDup (map fst (ser p)) /\ forall t c, In (t, c) (ser p) <-> In t (dc_tids d) /\ frames_in d (fst p) t c) /\
    select d (SelGlobs (map (fun p => (fst p, "*")) srcs)) = Ok data /\
    mpx_open tag d (Some name) modules min =
    let* fpt := frames_per_train table in let* data := mx_select_trains data table min in
    if z_unique (map snd srcs) then Ok (mk_mpx name data srcs fpt) else Err EAssertionError.
Proof.
  intros tag min.
  intros Hne. destruct (open_select R K G C Hne) as (data & Hsel & _). destruct (open_counts R K G C Hne Hsel) as (sers & Hs & HF).
    exists data, (fun p => match get_data_counts data (fst p) "image.data" with Ok l => l | Err _ => [] end).
    set (ser := fun p : string * Z => match get_data_counts data (fst p) "image.data" with Ok l => l | Err _ => [] end).
    assert (Esers : sers = map ser srcs).
    { apply mapM_ok_iff in Hs. clear -Hs. fold srcs in Hs. induction Hs as [|p l ps ls Hp H IH]; [reflexivity|].
      simpl. f_equal; [|exact IH]. unfold ser. now rewrite Hp. }
    assert (Hser : forall p, In p srcs -> NoDup (map fst (ser p)) /\ forall t c, In (t, c) (ser p) <-> In t (dc_tids d) /\ frames_in d (fst p) t c).
    { rewrite Esers in HF. fold srcs in HF. clear -HF. intros p Hp. induction srcs as [|q l IH]; [destruct Hp|]. simpl in HF. inversion HF; subst.
      destruct Hp as [->|Hp]; auto. }
    split; [exact Hser|]. split; [exact Hsel|]. unfold mpx_open. cbn [bind]. rewrite identify_spec. fold srcs.
    assert (X : match srcs with [] => Err ESourceNameError | p :: l => Ok (p :: l) end = Ok srcs) by (destruct srcs; [congruence|reflexivity]).
    rewrite X. clear X. cbn [bind]. fold srcs in Hsel. rewrite Hsel. cbn [bind]. fold srcs in Hs. rewrite Hs. cbn [bind].
    rewrite Esers, (table_ok Hser). reflexivity.
Qed.

Theorem open_spec : forall tag min,
  (srcs = [] -> mpx_open tag d (Some name) modules min = Err ESourceNameError) /\
  (srcs <> [] -> (forall c, ~ frames_uniform d name modules c) -> mpx_open tag d (Some name) modules min = Err EValueError) /\
  (srcs <> [] -> (forall t, ~ detector_train d name modules min t) -> mpx_open tag d (Some name) modules min = Err EValueError) /\
  (forall c t, frames_uniform d name modules c -> detector_train d name modules min t -> ~ NoDup (map snd srcs) ->
     mpx_open tag d (Some name) modules min = Err EAssertionError) /\
  (forall c t, frames_uniform d name modules c -> detector_train d name modules min t -> NoDup (map snd srcs) ->
     exists m, mpx_open tag d (Some name) modules min = Ok m /\ mx_name m = name /\ mx_modules m = srcs /\ mx_fpt m = c /\
       (forall t, In t (mx_train_ids m) <-> detector_train d name modules min t) /\ StronglySorted Z.lt (mx_train_ids m) /\
       reachable (mx_data m) /\ narrower d (mx_data m) /\
       (forall s, In s (dc_sources (mx_data m)) <-> In s (map fst srcs) /\ exists f, In f (dc_files (mx_data m)) /\ In s (fa_sources f)) /\
       (forall f, In f (dc_files (mx_data m)) -> exists t, In t (fa_tids f) /\ In t (mx_train_ids m)) /\
       (forall f s t, In s (map fst srcs) -> In t (mx_train_ids m) -> holds d f s t -> In f (dc_files (mx_data m)))).
Proof.
  intros tag min.
  assert (Base : srcs = [] -> mpx_open tag d (Some name) modules min = Err ESourceNameError).
  { intros H. unfold mpx_open. cbn [bind]. rewrite identify_spec. fold srcs. now rewrite H. }
  split; [exact Base|]. clear Base.
  pose proof (open_main tag min) as Main. cbv zeta in Main.
  split; [|split; [|split]].
  - intros Hne Hu. destruct (Main Hne) as (data & ser & Hser & Hsel & ->). now rewrite (fpt_err Hser Hu).
  - intros Hne Hu. destruct (Main Hne) as (data & ser & Hser & Hsel & ->).
    destruct (frames_per_train _) as [c|e] eqn:E; cbn [bind].
    + unfold mx_select_trains. destruct (trains_with_modules _ min) as [|t l] eqn:Et; [reflexivity|]. exfalso.
      apply (Hu t). apply (trains_spec Hser). rewrite Et. now left.
    + unfold frames_per_train in E. destruct (zdedup _) as [|? [|? ?]]; congruence.
  - intros c t Hu Ht HN. assert (Hne : srcs <> []).
    { destruct Ht as (_ & (s & n & _ & Hm & _) & _). apply module_list_In in Hm. fold srcs in Hm. intros E. rewrite E in Hm. destruct Hm. }
    destruct (Main Hne) as (data & ser & Hser & Hsel & ->). rewrite (proj2 (fpt_spec Hser c) Hu). cbn [bind].
    destruct (open_select R K G C Hne) as (data' & Hsel' & R' & _ & Ht' & _). fold srcs in Hsel'. rewrite Hsel in Hsel'. injection Hsel' as <-.
    unfold mx_select_trains. destruct (trains_with_modules _ min) as [|t' l] eqn:Et.
    { exfalso. apply (trains_spec Hser) in Ht. rewrite Et in Ht. destruct Ht. }
    destruct (by_id_list (dc_tids data) (t' :: l)) as [_ (r & Hr & _)]; [exists t'; split; [rewrite Ht'; apply (proj1 (trains_spec Hser min t')); rewrite Et; now left|now left]|].
    destruct (select_trains_ok R' Hr) as (d1 & -> & _). cbn [bind].
    destruct (z_unique (map snd srcs)) eqn:Eu; [|reflexivity]. exfalso. apply HN. now apply z_unique_iff.
  - intros c t Hu Ht HN. assert (Hne : srcs <> []).
    { destruct Ht as (_ & (s & n & _ & Hm & _) & _). apply module_list_In in Hm. fold srcs in Hm. intros E. rewrite E in Hm. destruct Hm. }
    destruct (Main Hne) as (data & ser & Hser & Hsel & ->). rewrite (proj2 (fpt_spec Hser c) Hu). cbn [bind].
    destruct (open_select R K G C Hne) as (data' & Hsel' & R' & N' & Ht' & Hs' & Hi' & _). fold srcs in Hsel', Hs', Hi'. rewrite Hsel in Hsel'. injection Hsel' as <-.
    unfold mx_select_trains.
    assert (Hspec := trains_spec Hser).
    destruct (trains_with_modules _ min) as [|t' l] eqn:Et.
    { exfalso. apply Hspec in Ht. rewrite Et in Ht. destruct Ht. }
    assert (Hspec' : forall t0, In t0 (t' :: l) <-> detector_train d name modules min t0) by (intros t0; rewrite <- Et; apply Hspec).
    destruct (by_id_list (dc_tids data) (t' :: l)) as [_ (r & Hr & Hrs)]; [exists t'; split; [rewrite Ht'; apply (proj1 (Hspec min t')); rewrite Et; now left|now left]|].
    destruct (select_trains_ok R' Hr) as (d1 & Hd1 & Htd1 & Hsel1 & Hf1). rewrite Hd1. cbn [bind].
    rewrite (proj2 (z_unique_iff _) HN).
    eexists. split; [reflexivity|]. cbn [mx_name mx_modules mx_fpt mx_data]. unfold mx_train_ids. cbn [mx_data].
    assert (R1 : reachable d1) by (eapply reach_trains; eassumption).
    assert (Hdt : forall t0, In t0 (dc_tids d1) <-> detector_train d name modules min t0).
    { intros t0. rewrite Htd1. destruct Hrs as [_ Hrs]. rewrite Hrs, Hspec', Ht'. split; [tauto|]. intros X. split; [apply X|exact X]. }
    destruct (reachable_inv R') as [Hb' _]. destruct (reachable_inv R1) as [Hb1 _].
    split; [reflexivity|]. split; [reflexivity|]. split; [reflexivity|]. split; [exact Hdt|].
    split; [rewrite Htd1; apply Hrs|]. split; [exact R1|].
    split; [eapply narrower_trans; [exact N'|]; eapply trains_narrower; eassumption|]. split; [|split].
    + intros s. split.
      * intros H. apply (dc_sources_In s Hb1) in H as (Hk & f & Hf & Hsf). split; [|eauto]. apply Hs'.
        apply (dc_sources_In s Hb'). rewrite Hsel1 in Hk. split; [assumption|]. exists f. split; [|assumption].
        rewrite Hf1 in Hf. apply filter_In in Hf. tauto.
      * intros (H & f & Hf & Hsf). apply (dc_sources_In s Hb1). rewrite Hsel1. split; [|eauto].
        apply Hs' in H. apply (dc_sources_In s Hb') in H. tauto.
    + intros f Hf. rewrite Hf1 in Hf. apply filter_In in Hf as [_ Hf]. apply existsb_exists in Hf as (t0 & H1 & H2).
      rewrite Htd1. apply z_in_iff in H2. exists t0. auto.
    + intros f s t0 Hs Ht0 Hh. destruct N' as (_ & _ & _ & N4). apply Hs' in Hs.
      assert (Hd : In t0 (dc_tids data)) by (rewrite Ht'; apply (proj1 (Hdt t0) Ht0)).
      apply (N4 f s t0 Hs Hd) in Hh. destruct Hh as (A1 & _ & A3). rewrite Hf1. apply filter_In. split; [assumption|].
      apply existsb_exists. exists t0. split; [assumption|]. apply z_in_iff. now rewrite <- Htd1.
Qed.

(** What the constructor returns. *)
Record made (min : Z) (m : mpx V) : Prop := {
  mk_nm : mx_name m = name;
  mk_mods : mx_modules m = srcs;
  mk_nodup : NoDup (map snd srcs);
  mk_unif : frames_uniform d name modules (mx_fpt m);
  mk_trains : forall t, In t (mx_train_ids m) <-> detector_train d name modules min t;
  mk_some : mx_train_ids m <> [];
  mk_sorted : StronglySorted Z.lt (mx_train_ids m);
  mk_reach : reachable (mx_data m);
  mk_narrow : narrower d (mx_data m);
  mk_sources : forall s, In s (dc_sources (mx_data m)) <-> In s (map fst srcs) /\ exists f, In f (dc_files (mx_data m)) /\ In s (fa_sources f);
  mk_files : forall f, In f (dc_files (mx_data m)) -> exists t, In t (fa_tids f) /\ In t (mx_train_ids m);
  mk_kept : forall f s t, In s (map fst srcs) -> In t (mx_train_ids m) -> holds d f s t -> In f (dc_files (mx_data m)) }.


Lemma open_inv : forall tag min m, mpx_open tag d (Some name) modules min = Ok m -> made min m.
Proof.
  intros tag min m H. assert (Hopen := H). destruct (open_spec tag min) as (S1 & S2 & S3 & S4 & S5).
  assert (Hne : srcs <> []) by (intros E; rewrite (S1 E) in H; discriminate).
  destruct (open_main tag min Hne) as (data & ser & Hser & Hsel & E). cbv zeta in E. rewrite E in H.
  apply bind_ok in H as (c & Hc & H). apply bind_ok in H as (d1 & Hd1 & H).
  assert (Hu := proj1 (fpt_spec Hser c) Hc).
  unfold mx_select_trains in Hd1. destruct (trains_with_modules _ min) as [|t' l] eqn:Et; [discriminate|].
  assert (Ht : detector_train d name modules min t') by (apply (trains_spec Hser); rewrite Et; now left).
  destruct (z_unique (map snd srcs)) eqn:Eu; [|discriminate]. apply z_unique_iff in Eu.
  destruct (S5 c t' Hu Ht Eu) as (m' & Hm' & H1 & H2 & H3 & H4 & H5 & H6 & H7 & H8 & H9 & H10).
  rewrite Hopen in Hm'. injection Hm' as <-.
  constructor; try assumption.
  - now rewrite H3.
  - intros E0. apply H4 in Ht. rewrite E0 in Ht. destruct Ht.
Qed.
End C.
