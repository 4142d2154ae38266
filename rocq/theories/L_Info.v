(** Lemmas on detector_info, train_info and info. *)
From Verif Require Import Base PyStr M_Files M_Machinery M_Reader M_Select M_FilesMap M_Stacking M_Components S_Reader S_Coll S_Series
  S_Stacking S_Components L_Base L_Machinery L_Reader L_GetArray L_Select L_Series L_Stacking L_Components L_Components6 L_FilesMap2
  L_Array2 M_Info S_Info L_Roi.
Set Implicit Arguments.
Unset Strict Implicit.
Local Open Scope string_scope.
Local Open Scope list_scope.

(** ** Order of strings *)
Lemma ascii_compare_trans_lt : forall a b c, Ascii.compare a b = Lt -> Ascii.compare b c = Lt -> Ascii.compare a c = Lt.
Proof. unfold Ascii.compare. intros a b c H1 H2. apply N.compare_lt_iff. eapply N.lt_trans; apply N.compare_lt_iff; eassumption. Qed.
Lemma ascii_compare_eq : forall a b, Ascii.compare a b = Eq <-> a = b.
Proof.
  intros a b. unfold Ascii.compare. rewrite N.compare_eq_iff. split; [|congruence].
  intros H. rewrite <- (ascii_N_embedding a), <- (ascii_N_embedding b). now rewrite H.
Qed.
Lemma compare_trans : forall a b c, String.compare a b <> Gt -> String.compare b c <> Gt -> String.compare a c <> Gt.
Proof.
  induction a as [|x a IH]; intros [|y b] [|z c] H1 H2; simpl in *; try congruence.
  destruct (Ascii.compare x y) eqn:E1; [|destruct (Ascii.compare y z) eqn:E2|congruence].
  - apply ascii_compare_eq in E1. subst y. destruct (Ascii.compare x z) eqn:E2; try congruence. eapply IH; eassumption.
  - apply ascii_compare_eq in E2. subst z. rewrite E1. congruence.
  - rewrite (ascii_compare_trans_lt E1 E2). congruence.
  - congruence.
Qed.
Lemma name_le_iff : forall a b, name_le a b <-> String.compare a b <> Gt.
Proof. intros a b. unfold name_le, String.leb. destruct (String.compare a b); split; congruence. Qed.
Lemma name_le_trans : forall a b c, name_le a b -> name_le b c -> name_le a c.
Proof. intros a b c. rewrite !name_le_iff. apply compare_trans. Qed.
Lemma name_le_refl : forall a, name_le a a.
Proof. intros a. destruct (String.leb_total a a); assumption. Qed.
Lemma name_le_antisym : forall a b, name_le a b -> name_le b a -> a = b.
Proof. intros a b H1 H2. apply String.leb_antisym; assumption. Qed.

Lemma str_sort_sorted : forall l, StronglySorted name_le (str_sort l).
Proof.
  intros l. apply Sorted_StronglySorted; [intros a b c; apply name_le_trans|]. unfold str_sort. apply isort_Sorted.
  intros a b. apply String.leb_total.
Qed.
Lemma str_sort_perm : forall l, Permutation l (str_sort l).
Proof. intros l. apply isort_perm. Qed.
Lemma sorted_strict : forall l, StronglySorted name_le l -> NoDup l -> StronglySorted name_lt l.
Proof.
  induction l as [|x l IH]; intros H N; [constructor|]. inversion H as [|? ? H1 H2]; subst. inversion N as [|? ? N1 N2]; subst.
  constructor; [now apply IH|]. rewrite Forall_forall in *. intros y Hy. split; [auto|]. intros ->. contradiction.
Qed.
Lemma fold_add_spec : forall l acc, NoDup acc -> NoDup (fold_left (fun acc s => set_add s acc) l acc) /\
  forall s, In s (fold_left (fun acc s => set_add s acc) l acc) <-> In s acc \/ In s l.
Proof.
  induction l as [|x l IH]; intros acc N; simpl.
  - split; [assumption|]. tauto.
  - destruct (IH (set_add x acc) (set_add_NoDup x N)) as [H1 H2]. split; [assumption|].
    intros s. rewrite H2, set_add_In. intuition.
Qed.
Lemma str_sort_set_spec : forall l, StronglySorted name_lt (str_sort_set l) /\ forall s, In s (str_sort_set l) <-> In s l.
Proof.
  intros l. unfold str_sort_set. destruct (@fold_add_spec l [] (NoDup_nil _)) as [H1 H2]. split.
  - apply sorted_strict; [apply str_sort_sorted|]. eapply Permutation_NoDup; [apply str_sort_perm|assumption].
  - intros s. rewrite in_str_sort, H2. simpl. tauto.
Qed.

(** ** detector_info *)
Section D.
Context {V : Type}.
Notation faccess := (faccess V).
Notation dcoll := (dcoll V).

Lemma sorted_first : forall (l : list faccess) f r, isort (fun a b => String.leb (h5_name (fa_file a)) (h5_name (fa_file b))) l = f :: r ->
  In f l /\ forall f', In f' l -> name_le (h5_name (fa_file f)) (h5_name (fa_file f')).
Proof.
  intros l f r H. set (leb := fun a b : faccess => String.leb (h5_name (fa_file a)) (h5_name (fa_file b))) in *.
  assert (P := isort_perm leb l). rewrite H in P.
  assert (S : StronglySorted (fun a b => leb a b = true) (isort leb l)).
  { apply Sorted_StronglySorted; [intros a b c; apply name_le_trans|]. apply isort_Sorted. intros a b. apply String.leb_total. }
  rewrite H in S. inversion S as [|? ? S1 S2]; subst. rewrite Forall_forall in S2. split.
  - eapply Permutation_in; [symmetry; exact P|now left].
  - intros f' Hf'. apply (Permutation_in _ P) in Hf' as [<-|Hf']; [apply name_le_refl|exact (S2 f' Hf')].
Qed.

Lemma filter_nonzero_In : forall c l, In c (filter (fun c => negb (c =? 0)%Z) (zdedup l)) <-> In c l /\ c <> 0%Z.
Proof. intros c l. rewrite filter_In, zdedup_In. destruct (Z.eqb_spec c 0); simpl; intuition congruence. Qed.

Theorem detector_info_spec : forall pop (d : dcoll) s, reachable d -> distinct_kinds d -> good_files d -> In s (dc_inst d) ->
  readable_index d s "image.data" ->
  (forall f, In f (dc_files d) -> In s (fa_sources f) -> exists ds, dict_get ("INSTRUMENT/" ++ s ++ "/image/data")%string (h5_data (fa_file f)) = Some ds) ->
  (forall l, l <> [] -> In (pop l) l) ->
  exists r f ds, detector_info pop d s = Ok r /\ first_file d s f /\
    dict_get ("INSTRUMENT/" ++ s ++ "/image/data")%string (h5_data (fa_file f)) = Some ds /\
    di_dims r = last_two (Z.of_nat (List.length (ds_rows ds)) :: ds_item ds) /\
    di_total r = (di_frames r * Z.of_nat (List.length (dc_tids d)))%Z /\
    (di_frames r = 0 -> forall c, frames_of f s c -> c = 0)%Z /\
    (di_frames r <> 0%Z -> frames_of f s (di_frames r)) /\
    (di_warned r = true <-> exists c c', frames_of f s c /\ frames_of f s c' /\ c <> 0 /\ c' <> 0 /\ c <> c')%Z.
Proof.
  intros pop d s Hr Hk Hg Hs Hi Hd Hpop. destruct (reachable_inv Hr) as [Hb Ho].
  destruct (inst_not_ctrl Hb Hk Hs) as [Hc Hss].
  unfold detector_info.
  destruct (isort _ (source_files (dc_files d) s)) as [|f rest] eqn:E.
  { exfalso. apply (source_has_file Hb Hss). assert (P := isort_perm (fun a b => String.leb (h5_name (fa_file a)) (h5_name (fa_file b))) (source_files (dc_files d) s)).
    rewrite E in P. apply Permutation_sym, Permutation_nil in P. assumption. }
  apply sorted_first in E as [E1 E2].
  assert (E1' := E1). apply source_files_In in E1' as [Hf Hsf].
  destruct (Hi f Hf Hsf) as (g & Hgg & Hok). rewrite Hc in Hgg.
  destruct (@index_read V f s "image" g Hgg Hok) as (firsts & counts & Ei & L1 & L2 & Hn). rewrite Ei. cbn [bind snd].
  destruct (Hd f Hf Hsf) as [ds Hds]. unfold fa_dataset. rewrite Hds. cbn [bind].
  assert (HC : forall c, In c counts <-> frames_of f s c).
  { intros c. split.
    - intros H. apply In_nth_error in H as [p H]. assert (Hp : (p < List.length (fa_tids f))%nat) by (rewrite <- L2; eapply nth_error_Some_lt; eassumption).
      destruct (@nth_error_ex _ (fa_tids f) p Hp) as [t Ht]. exists t. split; [eapply nth_error_In; eassumption|].
      assert (X := @file_count_at V d s "image.data" f p t g c Ho Hg Hf). rewrite Hc in X. apply X; try assumption.
      rewrite <- H. symmetry. apply (Hn p Hp).
    - intros (t & Ht & Hfc). apply In_nth_error in Ht as [p Hp].
      assert (Hl : (p < List.length (fa_tids f))%nat) by (eapply nth_error_Some_lt; eassumption).
      destruct (@nth_error_ex _ counts p) as [c' Hc']; [lia|].
      assert (X := @file_count_at V d s "image.data" f p t g c' Ho Hg Hf). rewrite Hc in X.
      rewrite (@file_count_fun V _ _ _ _ _ _ _ Hfc (X Hgg Hp (eq_trans (eq_sym (proj2 (Hn p Hl))) Hc'))).
      eapply nth_error_In; eassumption. }
  set (cs := filter (fun c => negb (c =? 0)%Z) (zdedup counts)).
  assert (HCS : forall c, In c cs <-> frames_of f s c /\ c <> 0%Z) by (intros c; unfold cs; rewrite filter_nonzero_In, HC; reflexivity).
  assert (NCS : NoDup cs) by (apply NoDup_filter, zdedup_NoDup).
  do 3 eexists. split; [reflexivity|]. split; [split; [exact Hf|split; [exact Hsf|]]; intros f' Hf' Hsf'; apply E2, source_files_In; auto|].
  split; [exact Hds|]. cbn [di_dims di_total di_frames di_warned]. split; [reflexivity|]. split; [reflexivity|].
  clearbody cs. split; [|split].
  - intros H c Hcc. destruct (Z.eq_dec c 0) as [|N]; [assumption|]. exfalso.
    assert (Hin : In c cs) by (apply HCS; auto). destruct cs as [|x cs]; [destruct Hin|].
    destruct (proj1 (HCS _) (Hpop (x :: cs) ltac:(discriminate))) as [_ HH]. exact (HH H).
  - intros H. destruct cs as [|x cs]; [congruence|].
    exact (proj1 (proj1 (HCS _) (Hpop (x :: cs) ltac:(discriminate)))).
  - rewrite Nat.ltb_lt. split.
    + intros H. destruct cs as [|x [|y cs]]; cbn [List.length] in H; try lia.
      destruct (proj1 (HCS x) (or_introl eq_refl)). destruct (proj1 (HCS y) (or_intror (or_introl eq_refl))).
      exists x, y. inversion NCS as [|? ? N1 N2]; subst. repeat split; try assumption. intros ->. apply N1. now left.
    + intros (c & c' & H1 & H2 & H3 & H4 & H5).
      assert (I1 : In c cs) by (apply HCS; auto). assert (I2 : In c' cs) by (apply HCS; auto).
      destruct cs as [|x [|y cs]]; cbn [List.length]; try lia; [destruct I1|].
      destruct I1 as [<-|[]]. destruct I2 as [<-|[]]. congruence.
Qed.

Lemma classic_holds : forall (d : dcoll) s t, (exists f, holds d f s t) \/ ~ exists f, holds d f s t.
Proof.
  intros d s t. unfold holds. destruct (existsb (fun f => str_in s (fa_sources f) && z_in t (fa_tids f)) (dc_files d)) eqn:E.
  - left. apply existsb_exists in E as (f & H1 & H2). apply andb_true_iff in H2 as [H2 H3]. exists f. split; [assumption|].
    split; [now apply str_in_iff|now apply z_in_iff].
  - right. intros (f & H1 & H2 & H3). apply str_in_iff in H2. apply z_in_iff in H3.
    assert (X : existsb (fun f => str_in s (fa_sources f) && z_in t (fa_tids f)) (dc_files d) = true) by (apply existsb_exists; exists f; rewrite H2, H3; auto).
    congruence.
Qed.

(** ** How many rows *)
Lemma labelled_cons : forall (t l : Z) (labels : list Z) (r : V) rows,
  rows_labelled t (l :: labels) (r :: rows) = if (l =? t)%Z then r :: rows_labelled t labels rows else rows_labelled t labels rows.
Proof. intros. unfold rows_labelled. cbn [combine filter fst]. destruct (l =? t)%Z; reflexivity. Qed.
Definition nsum (l : list nat) : nat := fold_right Nat.add 0 l.
Lemma nsum_ge : forall (ts : list Z) (f g : Z -> nat), (forall t, In t ts -> f t <= g t)%nat -> (nsum (map f ts) <= nsum (map g ts))%nat.
Proof. induction ts as [|t ts IH]; intros f g H; unfold nsum in *; cbn [map fold_right]; [lia|]. assert (H0 := H t (or_introl eq_refl)). assert (X := IH f g (fun t' Ht => H t' (or_intror Ht))). lia. Qed.
Lemma nsum_const : forall (ts : list Z) n, nsum (map (fun _ => n) ts) = (List.length ts * n)%nat.
Proof. induction ts as [|t ts IH]; intros n; simpl; [reflexivity|]. unfold nsum in IH. now rewrite IH. Qed.
Lemma labelled_count_le : forall (ts labels : list Z) (rows : list V), List.length labels = List.length rows -> Forall (fun t => In t ts) labels ->
  (List.length rows <= nsum (map (fun t => List.length (rows_labelled t labels rows)) ts))%nat.
Proof.
  intros ts labels. induction labels as [|l labels IH]; intros [|r rows] L H; try discriminate; [simpl; lia|].
  inversion H as [|? ? H1 H2]; subst. assert (IH' := IH rows ltac:(simpl in L; lia) H2). clear IH.
  cbn [List.length]. revert H1 IH'. generalize (List.length rows). intros n H1 IH'.
  enough (nsum (map (fun t => List.length (rows_labelled t labels rows)) ts) < nsum (map (fun t => List.length (rows_labelled t (l :: labels) (r :: rows))) ts))%nat by lia.
  clear -H1. induction ts as [|t ts IH]; [destruct H1|]. cbn [map]. unfold nsum in *. cbn [fold_right].
  assert (Hle : (fold_right Nat.add 0 (map (fun t => List.length (rows_labelled t labels rows)) ts) <=
                 fold_right Nat.add 0 (map (fun t => List.length (rows_labelled t (l :: labels) (r :: rows))) ts))%nat).
  { apply nsum_ge. intros t' _. rewrite labelled_cons. destruct (l =? t')%Z; simpl; lia. }
  rewrite labelled_cons. destruct (Z.eqb_spec l t) as [->|N]; cbn [List.length]; [lia|].
  destruct H1 as [->|H1]; [congruence|]. specialize (IH H1). lia.
Qed.
Lemma labelled_count : forall (ts labels : list Z) (rows : list V), NoDup ts -> List.length labels = List.length rows -> Forall (fun t => In t ts) labels ->
  List.length rows = nsum (map (fun t => List.length (rows_labelled t labels rows)) ts).
Proof.
  intros ts labels rows N. revert rows. induction labels as [|l labels IH]; intros [|r rows] L H; try discriminate.
  - simpl. clear. induction ts as [|t ts IH]; simpl; [reflexivity|assumption].
  - inversion H as [|? ? H1 H2]; subst. cbn [List.length]. rewrite (IH rows) by (auto; simpl in L; lia). clear IH H H2 L.
    induction ts as [|t ts IH]; [destruct H1|]. cbn [map]. unfold nsum in *. cbn [fold_right].
    inversion N as [|? ? N1 N2]; subst. rewrite labelled_cons. destruct (Z.eqb_spec l t) as [->|E].
    + cbn [List.length]. enough (X : map (fun t0 => List.length (rows_labelled t0 labels rows)) ts = map (fun t0 => List.length (rows_labelled t0 (t :: labels) (r :: rows))) ts) by (rewrite <- X; lia).
      apply map_ext_in. intros t' Ht'. rewrite labelled_cons. destruct (Z.eqb_spec t t') as [->|]; [contradiction|reflexivity].
    + destruct H1 as [->|H1]; [congruence|]. specialize (IH N2 H1). lia.
Qed.

Lemma labels_are_trains : forall (d : dcoll) s k a, reachable d -> distinct_kinds d -> good_files d -> good_index d s k ->
  get_array d s k = Ok a -> Forall (fun t => In t (dc_tids d)) (la_labels a).
Proof.
  intros d s k a Hr Hk Hg Hi Ha. apply Forall_forall. intros t Ht. destruct (in_dec Z.eq_dec t (dc_tids d)) as [|N]; [assumption|]. exfalso.
  destruct (@get_array_correct V d s k a Hr Hk Hg Hi Ha) as [_ H2].
  assert (X := H2 t ltac:(tauto)). assert (L := get_array_lengths Ha).
  clear -X L Ht. revert L X. generalize (la_rows a). induction (la_labels a) as [|l ls IH]; intros [|r rows] L X; try discriminate; [destruct Ht|].
  rewrite labelled_cons in X. destruct (Z.eqb_spec l t) as [->|N]; [discriminate|].
  destruct Ht as [->|Ht]; [congruence|]. eapply IH; try eassumption. simpl in L. lia.
Qed.

Lemma file_rows_count : forall (f : h5file V) b s k t rows, file_rows f b s k t rows ->
  exists c, file_count f b s k t c /\ (List.length rows <= Z.to_nat c)%nat.
Proof.
  intros f b s k t rows (raw & p & g & first & count & ds & R1 & R2 & R3 & R4 & R5 & R6 & R7 & ->).
  exists count. split; [exists raw, p, g; auto|]. rewrite firstn_length. lia.
Qed.
Lemma good_rows_count : forall (d : dcoll) s k f t rows c, reachable d -> good_files d -> good_index d s k -> holds d f s t ->
  file_rows (fa_file f) (str_in s (dc_ctrl d)) s k t rows -> file_count (fa_file f) (str_in s (dc_ctrl d)) s k t c ->
  List.length rows = Z.to_nat c.
Proof.
  intros d s k f t rows c Hr Hg Hi (Hf & Hs & Ht) (raw & p & g & first & count & ds & R1 & R2 & R3 & R4 & R5 & R6 & R7 & ->) Hc.
  assert (count = c) as <-.
  { eapply file_count_fun; [|exact Hc]. exists raw, p, g. auto. }
  destruct (reachable_inv Hr) as [_ Ho]. rewrite Forall_forall in Ho. assert (Hof := Ho f Hf).
  assert (Hgf : tids_ok (fa_file f)) by (unfold good_files in Hg; rewrite Forall_forall in Hg; auto).
  apply In_nth_error in Ht as [q Hq]. destruct (@raw_position V f q t Hof Hgf Hq) as (raw' & Q1 & Q2 & Q3).
  rewrite R1 in Q1. injection Q1 as <-.
  assert (p = q).
  { destruct (Nat.lt_trichotomy p q) as [H|[H|H]]; [|assumption|]; exfalso; [exact (Q3 _ H R2)|exact (R3 _ H Q2)]. }
  subst q. destruct (Hi f Hf Hs) as (g' & Hg' & Hok & Hh). rewrite R4 in Hg'. injection Hg' as <-.
  assert (Hl : (p < List.length (fa_tids f))%nat) by (eapply nth_error_Some_lt; eassumption).
  assert (X := Hh ds R7 p first count Hl R5 R6).
  destruct Hok as ((_ & Hp) & _). destruct (Hp p Hl) as (a' & c' & P1 & P2 & P3 & P4).
  rewrite R5 in P1. injection P1 as <-. rewrite R6 in P2. injection P2 as <-. unfold u64_range in P4.
  rewrite firstn_length, skipn_length. lia.
Qed.

Theorem uniform_frames : forall pop (d : dcoll) s n, reachable d -> distinct_kinds d -> good_files d -> In s (dc_inst d) ->
  good_index d s "image.data" ->
  (forall f, In f (dc_files d) -> In s (fa_sources f) -> exists ds, dict_get ("INSTRUMENT/" ++ s ++ "/image/data")%string (h5_data (fa_file f)) = Some ds) ->
  (forall l, l <> [] -> In (pop l) l) ->
  n <> 0%Z -> (forall f c, In f (dc_files d) -> In s (fa_sources f) -> frames_of f s c -> c = 0 \/ c = n)%Z ->
  (forall f, first_file d s f -> frames_of f s n) ->
  exists r, detector_info pop d s = Ok r /\ di_frames r = n /\ di_warned r = false /\
    forall a, get_array d s "image.data" = Ok a ->
      (Z.of_nat (List.length (la_rows a)) <= di_total r)%Z /\
      (NoDup (dc_tids d) -> (forall t, In t (dc_tids d) -> exists f, holds d f s t /\ file_count (fa_file f) false s "image.data" t n) ->
       Z.of_nat (List.length (la_rows a)) = di_total r).
Proof.
  intros pop d s n Hr Hk Hg Hs Hi Hd Hpop Hn Hu Hf0.
  assert (Hir : readable_index d s "image.data").
  { intros f Hf Hsf. destruct (Hi f Hf Hsf) as (g & G1 & G2 & _). exists g. split; [assumption|]. exact (proj1 G2). }
  destruct (@detector_info_spec pop d s Hr Hk Hg Hs Hir Hd Hpop) as (r & f & ds & E & Hff & _ & _ & Ht & H0 & H1 & Hw).
  assert (Hff' := Hff). destruct Hff' as (Hf & Hsf & _).
  assert (Hfr : di_frames r = n).
  { destruct (Z.eq_dec (di_frames r) 0) as [Z0|N0].
    - exfalso. apply Hn. exact (H0 Z0 n (Hf0 f Hff)).
    - destruct (Hu f _ Hf Hsf (H1 N0)); [contradiction|assumption]. }
  destruct (reachable_inv Hr) as [Hb Ho]. destruct (inst_not_ctrl Hb Hk Hs) as [Hc Hss].
  assert (Hn0 : (0 <= n)%Z).
  { destruct (Hf0 f Hff) as (t & Htf & Hfc).
    apply In_nth_error in Htf as [p Hp]. destruct (Hi f Hf Hsf) as (g & G1 & ((_ & G2) & _) & _). rewrite Hc in G1.
    destruct (G2 p) as (a' & c' & P1 & P2 & P3 & P4); [eapply nth_error_Some_lt; eassumption|].
    assert (X := @file_count_at V d s "image.data" f p t g c' Ho Hg Hf). rewrite Hc in X.
    rewrite (file_count_fun Hfc (X G1 Hp P2)). unfold u64_range in P4. lia. }
  exists r. split; [assumption|]. split; [assumption|]. split.
  { destruct (di_warned r); [|reflexivity]. exfalso.
    destruct (proj1 Hw eq_refl) as (c & c' & C1 & C2 & C3 & C4 & C5).
    destruct (Hu f c Hf Hsf C1); [contradiction|]. destruct (Hu f c' Hf Hsf C2); [contradiction|]. congruence. }
  intros a Ha. rewrite Ht, Hfr. assert (L := get_array_lengths Ha). assert (HL := labels_are_trains Hr Hk Hg Hi Ha).
  destruct (@get_array_correct V d s "image.data" a Hr Hk Hg Hi Ha) as [A1 A2]. rewrite Hc in A1. split.
  - assert (X := labelled_count_le L HL).
    assert (Y : (nsum (map (fun t => List.length (rows_labelled t (la_labels a) (la_rows a))) (dc_tids d)) <= List.length (dc_tids d) * Z.to_nat n)%nat).
    { rewrite <- nsum_const. apply nsum_ge. intros t Htd.
      destruct (rows_labelled t (la_labels a) (la_rows a)) as [|x xs] eqn:Ex; [cbn; lia|]. rewrite <- Ex.
      destruct (classic_holds d s t) as [(f' & F1 & F2 & F3)|N].
      - destruct (file_rows_count (A1 f' t F1 F2 F3 Htd)) as (c & C1 & C2).
        destruct (Hu f' c F1 F2) as [->| ->]; [exists t; auto|lia|lia].
      - rewrite A2 in Ex; [discriminate|]. intros (_ & f' & F). apply N. exists f'. exact F. }
    assert (Z.of_nat (List.length (dc_tids d) * Z.to_nat n) = n * Z.of_nat (List.length (dc_tids d)))%Z by (rewrite Nat2Z.inj_mul, Z2Nat.id by lia; lia).
    lia.
  - intros N Hall. rewrite (labelled_count N L HL).
    assert (E2 : map (fun t => List.length (rows_labelled t (la_labels a) (la_rows a))) (dc_tids d) = map (fun _ => Z.to_nat n) (dc_tids d)).
    { apply map_ext_in. intros t Htd. destruct (Hall t Htd) as (f' & Hh & Hfc). assert (Hh' := Hh). destruct Hh' as (F1 & F2 & F3).
      assert (GR := @good_rows_count d s "image.data" f' t (rows_labelled t (la_labels a) (la_rows a)) n Hr Hg Hi Hh). rewrite Hc in GR.
      apply GR; [exact (A1 f' t F1 F2 F3 Htd)|exact Hfc]. }
    rewrite E2, nsum_const, Nat2Z.inj_mul, Z2Nat.id by lia. lia.
Qed.

(** ** train_info *)
Theorem train_info_spec : forall (d : dcoll) t,
  (In t (dc_tids d) -> exists inst ctrl, train_info d t = Ok (inst, ctrl) /\ StronglySorted name_lt inst /\ StronglySorted name_lt ctrl /\
     (forall s, In s inst <-> exists f, In f (dc_files d) /\ In t (fa_tids f) /\ In s (fa_inst f)) /\
     (forall s, In s ctrl <-> exists f, In f (dc_files d) /\ In t (fa_tids f) /\ In s (fa_ctrl f))) /\
  (~ In t (dc_tids d) -> train_info d t = Err EValueError).
Proof.
  intros d t. unfold train_info. split.
  - intros H. apply z_in_iff in H. rewrite H. cbn [negb]. do 2 eexists. split; [reflexivity|].
    split; [apply str_sort_set_spec|]. split; [apply str_sort_set_spec|].
    split; intros s; rewrite (proj2 (str_sort_set_spec _)), in_flat_map; split; intros (f & H1 & H2); exists f.
    all: try (apply filter_In in H1 as [H1 H3]; apply z_in_iff in H3; auto).
    all: destruct H2 as [H2 H3]; split; [apply filter_In; split; [assumption|now apply z_in_iff]|assumption].
  - intros H. destruct (z_in t (dc_tids d)) eqn:E; [|reflexivity]. apply z_in_iff in E. contradiction.
Qed.
End D.

(** ** info *)
Lemma py_first : forall A (l : list A) x, py_index l 0 = Ok x -> nth_error l 0 = Some x.
Proof.
  intros A l x H. unfold py_index in H. change (0 <? 0)%Z with false in H. cbv iota zeta in H. destruct (_ && _)%bool; [|discriminate].
  change (Z.to_nat 0) with 0%nat in H. destruct (nth_error l 0); congruence.
Qed.
Lemma py_last : forall A (l : list A) x, py_index l (-1) = Ok x -> nth_error l (List.length l - 1) = Some x.
Proof.
  intros A l x H. unfold py_index in H. change (-1 <? 0)%Z with true in H. cbv iota zeta in H. destruct (_ && _)%bool; [|discriminate].
  replace (Z.to_nat (-1 + Z.of_nat (List.length l))) with (List.length l - 1)%nat in H by lia. destruct (nth_error l (List.length l - 1)); congruence.
Qed.
Lemma app_inv_l : forall p a b : string, (p ++ a)%string = (p ++ b)%string -> a = b.
Proof. induction p as [|c p IH]; intros a b H; simpl in H; [assumption|]. injection H as H. auto. Qed.
Lemma det_groups_spec : forall s name ds, det_groups s = Some (name, ds) <-> module_named s name ds.
Proof.
  intros s name ds. unfold det_groups, module_named. split.
  - destruct (match_detname "" s) as [n|] eqn:E; [|discriminate]. assert (D := proj1 (match_detname_spec _ _ _) E).
    destruct (proj1 D) as ((k & ds' & b & -> & D1 & D2 & D3) & _).
    replace (strip_prefix n (n ++ "/DET/" ++ ds' ++ "CH" ++ b)%string) with (Some ("/DET/" ++ ds' ++ "CH" ++ b)%string) by (symmetry; now apply strip_prefix_spec).
    replace (strip_prefix "/DET/" ("/DET/" ++ ds' ++ "CH" ++ b)%string) with (Some (ds' ++ "CH" ++ b)%string) by (symmetry; now apply strip_prefix_spec).
    rewrite take_digits_app by (assumption || (simpl; reflexivity)). cbn [fst]. intros H. injection H as <- <-.
    split; [assumption|]. split; [assumption|]. split; [assumption|]. now exists b.
  - intros (D & D1 & D2 & b & ->). rewrite (proj2 (match_detname_spec _ _ _) D).
    replace (strip_prefix name (name ++ "/DET/" ++ ds ++ "CH" ++ b)%string) with (Some ("/DET/" ++ ds ++ "CH" ++ b)%string) by (symmetry; now apply strip_prefix_spec).
    replace (strip_prefix "/DET/" ("/DET/" ++ ds ++ "CH" ++ b)%string) with (Some (ds ++ "CH" ++ b)%string) by (symmetry; now apply strip_prefix_spec).
    rewrite take_digits_app by (assumption || (simpl; reflexivity)). reflexivity.
Qed.
Lemma is_detector_spec : forall s, is_detector s = true <-> exists name ds, module_named s name ds.
Proof.
  intros s. unfold is_detector. destruct (det_groups s) as [[name ds]|] eqn:E.
  - split; [|reflexivity]. intros _. exists name, ds. now apply det_groups_spec.
  - split; [discriminate|]. intros (name & ds & H). apply det_groups_spec in H. congruence.
Qed.

Lemma pair_leb_iff : forall a b, pair_leb a b = true <-> module_le a b.
Proof.
  intros [a1 a2] [b1 b2]. unfold pair_leb, module_le, name_lt, name_le. cbn [fst snd]. destruct (String.eqb_spec a1 b1) as [->|N]; intuition congruence.
Qed.
Lemma pair_leb_total : forall a b, pair_leb a b = true \/ pair_leb b a = true.
Proof.
  intros [a1 a2] [b1 b2]. unfold pair_leb. cbn [fst snd]. destruct (String.eqb_spec a1 b1) as [->|N].
  - rewrite String.eqb_refl. apply String.leb_total.
  - destruct (String.eqb_spec b1 a1); [congruence|]. apply String.leb_total.
Qed.
Lemma module_le_trans : forall a b c, module_le a b -> module_le b c -> module_le a c.
Proof.
  intros [a1 a2] [b1 b2] [c1 c2]. unfold module_le, name_lt. cbn [fst snd].
  intros [[H1 H2]|[-> H1]] [[H3 H4]|[-> H3]].
  - left. split; [eapply name_le_trans; eassumption|]. intros ->. apply H4. now apply name_le_antisym.
  - left. auto.
  - left. auto.
  - right. split; [reflexivity|]. eapply name_le_trans; eassumption.
Qed.

Lemma modules_set_In : forall k s l k' s', In (k', s') (modules_set k s l) -> (k' = k /\ s' = s) \/ In (k', s') l.
Proof.
  intros k s. induction l as [|[k0 s0] l IH]; intros k' s' H; cbn [modules_set] in H.
  - destruct H as [H|[]]. injection H as <- <-. auto.
  - destruct (String.eqb (fst k) (fst k0) && String.eqb (snd k) (snd k0))%bool.
    + destruct H as [H|H]; [injection H as <- <-; auto|right; now right].
    + destruct H as [H|H]; [right; now left|]. destruct (IH _ _ H); [auto|right; now right].
Qed.
Lemma modules_set_keys : forall k s l k', In k' (map fst (modules_set k s l)) <-> k' = k \/ In k' (map fst l).
Proof.
  intros k s. induction l as [|[k0 s0] l IH]; intros k'; cbn [modules_set]; [simpl; intuition|].
  destruct (String.eqb_spec (fst k) (fst k0)) as [E1|N1]; [destruct (String.eqb_spec (snd k) (snd k0)) as [E2|N2]|]; cbn [andb map fst].
  - assert (k = k0) as -> by (destruct k, k0; simpl in *; congruence). simpl. intuition.
  - simpl. rewrite IH. intuition.
  - simpl. rewrite IH. intuition.
Qed.
Lemma detector_modules_In : forall srcs k s, In (k, s) (detector_modules srcs) -> In s srcs /\ det_groups s = Some k.
Proof.
  intros srcs k s. unfold detector_modules.
  assert (H : forall srcs acc, (forall k s, In (k, s) acc -> In s srcs \/ False -> True) -> forall k s,
    In (k, s) (fold_left (fun acc s => match det_groups s with Some k => modules_set k s acc | None => acc end) srcs acc) ->
    In (k, s) acc \/ (In s srcs /\ det_groups s = Some k)).
  { clear. induction srcs as [|x srcs IH]; intros acc T k s H; cbn [fold_left] in H; [auto|].
    destruct (IH _ (fun _ _ _ _ => I) _ _ H) as [H1|[H1 H2]]; [|right; split; [now right|assumption]].
    destruct (det_groups x) as [k0|] eqn:E; [|auto]. apply modules_set_In in H1 as [[-> ->]|H1]; [|auto].
    right. split; [now left|assumption]. }
  intros X. destruct (H srcs [] (fun _ _ _ _ => I) _ _ X) as [[]|Y]. exact Y.
Qed.
Lemma detector_modules_keys : forall srcs k, In k (map fst (detector_modules srcs)) <-> exists s, In s srcs /\ det_groups s = Some k.
Proof.
  intros srcs k. unfold detector_modules.
  assert (H : forall srcs acc, In k (map fst (fold_left (fun acc s => match det_groups s with Some k => modules_set k s acc | None => acc end) srcs acc)) <->
    In k (map fst acc) \/ exists s, In s srcs /\ det_groups s = Some k).
  { clear. induction srcs as [|x srcs IH]; intros acc; cbn [fold_left].
    - split; [auto|]. intros [H|(s & [] & _)]; exact H.
    - rewrite IH. destruct (det_groups x) as [k0|] eqn:E.
      + rewrite modules_set_keys. split.
        * intros [[->|H]|(s & H1 & H2)]; [right; exists x; split; [now left|assumption]|auto|right; exists s; split; [now right|assumption]].
        * intros [H|(s & [<-|H1] & H2)]; [auto|left; left; congruence|right; eauto].
      + split.
        * intros [H|(s & H1 & H2)]; [auto|right; exists s; split; [now right|assumption]].
        * intros [H|(s & [<-|H1] & H2)]; [auto|congruence|right; eauto]. }
  rewrite H. simpl. intuition.
Qed.

Section N.
Context {V : Type}.
Notation dcoll := (dcoll V).

Lemma detector_sources_In : forall (d : dcoll) s, In s (detector_sources d) <-> In s (dc_inst d) /\ exists name ds, module_named s name ds.
Proof. intros d s. unfold detector_sources. rewrite filter_In, is_detector_spec. reflexivity. Qed.

Theorem run_info_spec : forall pop np (d : dcoll) i, run_info pop np d = Ok i ->
  in_trains i = List.length (dc_tids d) /\ nth_error (dc_tids d) 0 = Some (in_first i) /\
  nth_error (dc_tids d) (List.length (dc_tids d) - 1) = Some (in_last i) /\ in_span i = train_span np (in_first i) (in_last i) /\
  (Z.abs (span_days (in_span i)) <= 999999999)%Z /\
  (exists mods, in_modules i = List.length mods /\ Permutation (dc_inst d) (mods ++ in_inst i) /\
     (forall s, In s mods -> exists name ds, module_named s name ds)) /\
  (forall s name ds, In s (in_inst i) -> ~ module_named s name ds) /\
  StronglySorted name_le (in_inst i) /\ StronglySorted name_le (in_ctrl i) /\ Permutation (dc_ctrl d) (in_ctrl i) /\
  StronglySorted name_lt (in_names i) /\
  (forall name, In name (in_names i) <-> exists s ds, In s (dc_inst d) /\ module_named s name ds) /\
  match in_example i with
  | None => forall s name ds, In s (dc_inst d) -> ~ module_named s name ds
  | Some (name, ds, s, di) => In s (dc_inst d) /\ module_named s name ds /\ detector_info pop d s = Ok di /\
      forall s' name' ds', In s' (dc_inst d) -> module_named s' name' ds' -> module_le (name, ds) (name', ds')
  end.
Proof.
  intros pop np d i H. unfold run_info in H.
  apply bind_ok in H as (first & H1 & H). apply bind_ok in H as (last & H2 & H). cbv zeta in H.
  destruct (Z.ltb_spec 999999999 (Z.abs (span_days (train_span np first last)))) as [|HO]; [discriminate|].
  set (mods := detector_modules (detector_sources d)) in *. apply bind_ok in H as (ex & H3 & H).
  apply Ok_inj in H. subst i. cbn [in_trains in_first in_last in_span in_modules in_names in_example in_inst in_ctrl].
  assert (HK : forall k, In k (map fst mods) <-> exists s, In s (dc_inst d) /\ module_named s (fst k) (snd k)).
  { intros [n ds]. unfold mods. rewrite detector_modules_keys. split.
    - intros (s & S1 & S2). apply det_groups_spec in S2. apply detector_sources_In in S1 as [S1 _]. exists s. auto.
    - intros (s & S1 & S2). exists s. split; [apply detector_sources_In; eauto|now apply det_groups_spec]. }
  assert (Hlen : (0 < List.length (dc_tids d))%nat).
  { destruct (dc_tids d); [discriminate H1|]. simpl; lia. }
  split; [reflexivity|]. split; [|split; [|split; [reflexivity|split; [exact HO|split; [|split; [|split; [|split; [|split; [|split; [|split]]]]]]]]]].
  - exact (py_first H1).
  - exact (py_last H2).
  - exists (detector_sources d). split; [reflexivity|]. split.
    + eapply Permutation_trans; [|apply Permutation_app_head, str_sort_perm].
      assert (X : filter (fun s => negb (str_in s (detector_sources d))) (dc_inst d) = filter (fun s => negb (is_detector s)) (dc_inst d)).
      { apply filter_ext_in. intros s Hs. f_equal. destruct (is_detector s) eqn:E.
        - apply str_in_iff. unfold detector_sources. apply filter_In. auto.
        - apply str_in_false. unfold detector_sources. rewrite filter_In. intros [_ X]. congruence. }
      rewrite X. unfold detector_sources. clear. induction (dc_inst d) as [|x l IH]; [constructor|]. cbn [filter].
      destruct (is_detector x); cbn [negb app]; [now constructor|].
      eapply Permutation_trans; [apply perm_skip, IH|]. apply Permutation_middle.
    + intros s Hs. apply detector_sources_In in Hs as [_ Hs]. exact Hs.
  - intros s name ds Hs Hm. apply in_str_sort, filter_In in Hs as [Hs E]. apply negb_true_iff, str_in_false in E. apply E, detector_sources_In. eauto.
  - apply str_sort_sorted.
  - apply str_sort_sorted.
  - apply str_sort_perm.
  - apply str_sort_set_spec.
  - intros name. rewrite (proj2 (str_sort_set_spec _)). rewrite <- map_map. split.
    + intros X. apply in_map_iff in X as ([n ds] & <- & X). apply HK in X as (s & S1 & S2). cbn [fst snd] in *. eauto.
    + intros (s & ds & S1 & S2). apply in_map_iff. exists (name, ds). split; [reflexivity|]. apply HK. eauto.
  - destruct (isort (fun a b => pair_leb (fst a) (fst b)) mods) as [|[k s] rest] eqn:E.
    + apply Ok_inj in H3. subst ex. assert (P := isort_perm (fun a b : (string * string) * string => pair_leb (fst a) (fst b)) mods). rewrite E in P.
      apply Permutation_sym, Permutation_nil in P. intros s name ds S1 S2.
      assert (X : In (name, ds) (map fst mods)) by (apply HK; eauto). rewrite P in X. exact X.
    + apply bind_ok in H3 as (di & D1 & D2). apply Ok_inj in D2. subst ex. destruct k as [name ds]. cbn [fst snd].
      assert (P := isort_perm (fun a b : (string * string) * string => pair_leb (fst a) (fst b)) mods). rewrite E in P.
      assert (S : StronglySorted (fun a b : (string * string) * string => pair_leb (fst a) (fst b) = true) (isort (fun a b => pair_leb (fst a) (fst b)) mods)).
      { apply Sorted_StronglySorted; [intros a b c; rewrite !pair_leb_iff; apply module_le_trans|]. apply isort_Sorted. intros a b. apply pair_leb_total. }
      rewrite E in S. inversion S as [|? ? S1 S2]; subst. rewrite Forall_forall in S2.
      assert (X : In ((name, ds), s) mods) by (eapply Permutation_in; [symmetry; exact P|now left]).
      apply detector_modules_In in X as [X1 X2]. apply detector_sources_In in X1 as [X1 _]. apply det_groups_spec in X2.
      split; [assumption|]. split; [assumption|]. split; [assumption|]. intros s' name' ds' T1 T2.
      assert (Y : In (name', ds') (map fst mods)) by (apply HK; eauto). apply in_map_iff in Y as ([k' s''] & <- & Y).
      apply (Permutation_in _ P) in Y as [Y|Y].
      * injection Y as <- _. right. split; [reflexivity|apply name_le_refl].
      * apply pair_leb_iff. exact (S2 _ Y).
Qed.
Theorem run_info_no_trains : forall pop np (d : dcoll), dc_tids d = [] -> run_info pop np d = Err EIndexError.
Proof. intros pop np d H. unfold run_info. rewrite H. reflexivity. Qed.
Lemma run_info_ends : forall pop np (d : dcoll) first last, nth_error (dc_tids d) 0 = Some first -> nth_error (dc_tids d) (List.length (dc_tids d) - 1) = Some last ->
  ((999999999 < Z.abs (span_days (train_span np first last)))%Z -> run_info pop np d = Err EOverflowError) /\
  ((Z.abs (span_days (train_span np first last)) <= 999999999)%Z ->
   (forall s name ds, In s (dc_inst d) -> module_named s name ds -> exists di, detector_info pop d s = Ok di) ->
   exists i, run_info pop np d = Ok i).
Proof.
  intros pop np d first last HF HL. unfold run_info.
  assert (Hl : (0 < List.length (dc_tids d))%nat) by (apply nth_error_Some; congruence).
  unfold py_index. cbn [Z.ltb Z.compare].
  replace ((0 <=? 0)%Z && (0 <? Z.of_nat (List.length (dc_tids d)))%Z)%bool with true by lia.
  replace ((0 <=? -1 + Z.of_nat (List.length (dc_tids d)))%Z && (-1 + Z.of_nat (List.length (dc_tids d)) <? Z.of_nat (List.length (dc_tids d)))%Z)%bool with true by lia.
  change (Z.to_nat 0) with 0%nat. rewrite HF.
  replace (Z.to_nat (-1 + Z.of_nat (List.length (dc_tids d)))) with (List.length (dc_tids d) - 1)%nat by lia. rewrite HL. cbn [bind]. cbv zeta.
  destruct (Z.ltb_spec 999999999 (Z.abs (span_days (train_span np first last)))) as [HO|HO]; (split; [intros X; first [reflexivity|lia]|]); intros X HD; [lia|].
  destruct (isort _ (detector_modules (detector_sources d))) as [|[k s] rest] eqn:E; [cbn [bind]; eauto|].
  assert (P := isort_perm (fun a b : (string * string) * string => pair_leb (fst a) (fst b)) (detector_modules (detector_sources d))). rewrite E in P.
  assert (Y : In (k, s) (detector_modules (detector_sources d))) by (eapply Permutation_in; [symmetry; exact P|now left]).
  apply detector_modules_In in Y as [X1 X2]. apply detector_sources_In in X1 as [X1 (name & ds & X3)].
  destruct (HD s name ds X1 X3) as [di ->]. cbn [bind]. eauto.
Qed.
End N.
