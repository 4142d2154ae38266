(** Grids of trains and pulses. *)
From Verif Require Import Base M_Files M_Reader M_Select M_Series M_Stacking M_Components M_Grid
  S_Components L_Base L_Series L_Validation2.
Set Implicit Arguments. Unset Strict Implicit.
Local Open Scope list_scope.

(** ** Sorting *)
Lemma sort_key_map : forall A B (g : A -> B) (f : B -> Z) l, sort_key f (map g l) = map g (sort_key (fun x => f (g x)) l).
Proof.
  intros A B g f l. unfold sort_key, isort. induction l as [|x l IH]; [reflexivity|]. simpl. rewrite IH.
  set (r := fold_right _ _ l). clearbody r. induction r as [|y r IHr]; [reflexivity|]. simpl. destruct (_ <=? _)%Z; simpl; [reflexivity|].
  now rewrite IHr.
Qed.
Lemma sort_key_ext : forall A (f g : A -> Z) l, (forall x, f x = g x) -> sort_key f l = sort_key g l.
Proof.
  intros A f g l H. unfold sort_key, isort. induction l as [|x l IH]; [reflexivity|]. simpl. rewrite IH.
  set (r := fold_right _ _ l). clearbody r. induction r as [|y r IHr]; [reflexivity|]. simpl. rewrite !H. destruct (_ <=? _)%Z; [reflexivity|].
  now rewrite IHr.
Qed.
Lemma sorted_ext : forall l l', StronglySorted Z.lt l -> StronglySorted Z.lt l' -> (forall x, In x l <-> In x l') -> l = l'.
Proof.
  induction l as [|x l IH]; intros [|y l'] H H' E.
  - reflexivity.
  - exfalso. apply (E y). now left.
  - exfalso. apply (E x). now left.
  - inversion H as [|? ? H1 H2]. inversion H' as [|? ? H1' H2']. subst. rewrite Forall_forall in *.
    assert (x = y).
    { assert (A := proj1 (E x) (or_introl eq_refl)). assert (B := proj2 (E y) (or_introl eq_refl)).
      destruct A as [A|A]; [auto|]. destruct B as [B|B]; [auto|]. specialize (H2' x A). specialize (H2 y B). lia. }
    subst y. f_equal. apply IH; [assumption|assumption|]. intros z. split; intros Hz.
    + assert (A := proj1 (E z) (or_intror Hz)). destruct A as [<-|A]; [|assumption]. specialize (H2 x Hz). lia.
    + assert (A := proj2 (E z) (or_intror Hz)). destruct A as [<-|A]; [|assumption]. specialize (H2' x Hz). lia.
Qed.

(** ** Axes *)
Lemma join_axis_spec : forall l, Forall (StronglySorted Z.lt) l ->
  exists r, join_axis l = Ok r /\ StronglySorted Z.lt r /\ forall x, In x r <-> exists a, In a l /\ In x a.
Proof.
  intros [|a l] H; simpl.
  - exists []. split; [reflexivity|]. split; [constructor|]. intros x. split; [intros []|intros (? & [] & _)].
  - destruct (forallb (zlist_eqb a) l) eqn:E.
    + exists a. split; [reflexivity|]. inversion H; subst. split; [assumption|]. intros x. split; [intros Hx; exists a; auto|].
      intros (b & [<-|Hb] & Hx); [assumption|]. rewrite forallb_forall in E. apply E, zlist_eqb_iff in Hb. now subst.
    + replace (z_unique a && forallb z_unique l) with true.
      * exists (zsort_set (a ++ List.concat l)). split; [reflexivity|]. split; [apply zsort_set_sorted|]. intros x.
        rewrite zsort_set_In. change (a ++ List.concat l) with (List.concat (a :: l)). rewrite in_concat. reflexivity.
      * symmetry. apply andb_true_iff. inversion H; subst. split; [now apply z_unique_iff, StronglySorted_NoDup_lt|].
        apply forallb_forall. intros b Hb. rewrite Forall_forall in H3. apply z_unique_iff, StronglySorted_NoDup_lt. auto.
Qed.

Lemma combine_map_self : forall A (f : Z -> A) l x c, In (x, c) (combine l (map f l)) <-> In x l /\ c = f x.
Proof.
  intros A f l x c. induction l as [|y l IH]; simpl; [tauto|]. rewrite IH. split.
  - intros [E|[H1 H2]]; [injection E as <- <-; auto|auto].
  - intros [[<-|H1] H2]; [subst; auto|auto].
Qed.
Lemma lookup_spec : forall A (fill : A) x l, NoDup (map fst l) ->
  (forall c, In (x, c) l -> lookup x l fill = c) /\ (~ In x (map fst l) -> lookup x l fill = fill).
Proof.
  intros A fill x l HN. unfold lookup. split.
  - intros c H. induction l as [|[y b] l IH]; [destruct H|]. simpl in *. inversion HN; subst. destruct H as [E|H].
    + injection E as -> ->. now rewrite Z.eqb_refl.
    + destruct (Z.eqb_spec y x); [|auto]. subst. exfalso. apply H2. apply in_map_iff. exists (x, c). auto.
  - intros H. destruct (find _ l) as [[y b]|] eqn:E; [|reflexivity]. apply find_some in E as [E1 E2]. simpl in E2. apply Z.eqb_eq in E2. subst y.
    exfalso. apply H. apply in_map_iff. exists (x, b). auto.
Qed.
Lemma map_fst_combine : forall A (l : list Z) (v : list A), List.length v = List.length l -> map fst (combine l v) = l.
Proof. induction l as [|x l IH]; intros [|y v] H; simpl in *; try reflexivity; try discriminate. f_equal. apply IH. lia. Qed.
Lemma align_length : forall A (fill : A) old new vals, List.length vals = List.length old -> List.length (align fill old new vals) = List.length new.
Proof.
  intros A fill old new vals H. unfold align. destruct (zlist_eqb old new) eqn:E; [|apply map_length]. apply zlist_eqb_iff in E. now subst.
Qed.
Lemma align_spec : forall A (fill : A) old new vals x c, NoDup old -> List.length vals = List.length old ->
  In (x, c) (combine new (align fill old new vals)) -> In (x, c) (combine old vals) \/ (~ In x old /\ c = fill).
Proof.
  intros A fill old new vals x c HN HL H. unfold align in H. destruct (zlist_eqb old new) eqn:E.
  - apply zlist_eqb_iff in E. subst. auto.
  - apply combine_map_self in H as [H ->]. assert (X : NoDup (map fst (combine old vals))) by now rewrite map_fst_combine.
    destruct (lookup_spec fill x X) as [L1 L2]. rewrite map_fst_combine in L2 by assumption.
    destruct (in_dec Z.eq_dec x old) as [Hx|Hx]; [left|right; auto].
    rewrite <- (map_fst_combine (v := vals) (l := old) HL) in Hx. apply in_map_iff in Hx as ([y b] & Ey & Hx). simpl in Ey. subst y.
    now rewrite (L1 _ Hx).
Qed.

(** ** The content of a grid *)
Section G.
Context {V : Type}.
Record grid_holds (g : grid V) (F : Z -> Z -> V -> Prop) : Prop := {
  gh_trains : StronglySorted Z.lt (gr_trains g);
  gh_pulses : StronglySorted Z.lt (gr_pulses g);
  gh_tin : forall t, In t (gr_trains g) <-> exists p v, F t p v;
  gh_pin : forall p, In p (gr_pulses g) <-> exists t v, F t p v;
  gh_width : forall t row, In (t, row) (gr_rows g) -> List.length row = List.length (gr_pulses g);
  gh_cell : forall t row p c, In (t, row) (gr_rows g) -> In (p, c) (combine (gr_pulses g) row) -> forall v, c = Some v <-> F t p v }.

Lemma find_frame_spec : forall t p (l : list (Z * Z * V)), NoDup (map fst l) -> forall v, find_frame t p l = Some v <-> In (t, p, v) l.
Proof.
  intros t p l HN v. unfold find_frame. destruct (find _ l) as [[[t' p'] v']|] eqn:E.
  - apply find_some in E as [E1 E2]. simpl in E2. apply andb_true_iff in E2 as [A B]. apply Z.eqb_eq in A, B. subst t' p'. simpl. split.
    + intros H. injection H as <-. assumption.
    + intros H. f_equal. clear -HN H E1. induction l as [|x l IH]; [destruct H|]. simpl in HN. inversion HN; subst.
      destruct H as [->|H], E1 as [E|E].
      * congruence.
      * exfalso. apply H2. apply in_map_iff. exists (t, p, v'). auto.
      * subst x. exfalso. apply H2. apply in_map_iff. exists (t, p, v). auto.
      * auto.
  - split; [discriminate|]. intros H. exfalso. eapply find_none in E; [|exact H]. simpl in E. rewrite !Z.eqb_refl in E. discriminate.
Qed.
Lemma unstack_trains : forall a : arr V, gr_trains (unstack a) = zsort_set (map (@frame_train V) (ar_frames a)).
Proof. intros a. unfold gr_trains, unstack. cbn [gr_rows]. rewrite map_map. cbn [fst]. apply map_id. Qed.
Lemma unstack_holds : forall a : arr V, NoDup (map fst (ar_frames a)) -> grid_holds (unstack a) (fun t p v => In (t, p, v) (ar_frames a)).
Proof.
  intros a HN. constructor.
  - rewrite unstack_trains. apply zsort_set_sorted.
  - apply zsort_set_sorted.
  - intros t. rewrite unstack_trains, zsort_set_In, in_map_iff. split.
    + intros ([[t' p] v] & E & H). simpl in E. subst. eauto.
    + intros (p & v & H). exists (t, p, v). auto.
  - intros p. unfold unstack. cbn [gr_pulses]. rewrite zsort_set_In, in_map_iff. split.
    + intros ([[t p'] v] & E & H). simpl in E. subst. eauto.
    + intros (t & v & H). exists (t, p, v). auto.
  - intros t row H. unfold unstack in H. cbn [gr_rows] in H. apply in_map_iff in H as (t' & E & _). injection E as <- <-. apply map_length.
  - intros t row p c H Hc v. unfold unstack in H. cbn [gr_rows] in H. apply in_map_iff in H as (t' & E & _). injection E as <- <-.
    apply combine_map_self in Hc as [_ ->]. now apply find_frame_spec.
Qed.

Lemma fold_min : forall l t, StronglySorted Z.lt (zsort_set (t :: l)) -> hd 0%Z (zsort_set (t :: l)) = fold_left Z.min l t.
Proof.
  intros l t H. assert (HI : forall x, In x (zsort_set (t :: l)) <-> In x (t :: l)) by (intros; apply zsort_set_In).
  destruct (zsort_set (t :: l)) as [|y r]; [exfalso; apply (HI t); now left|]. simpl.
  assert (M : In (fold_left Z.min l t) (t :: l) /\ forall x, In x (t :: l) -> (fold_left Z.min l t <= x)%Z).
  { clear. revert t. induction l as [|x l IH]; intros t; simpl.
    - split; [auto|]. intros x [<-|[]]. lia.
    - destruct (IH (Z.min t x)) as [I1 I2]. split.
      + destruct I1 as [I1|I1]; [|auto]. rewrite <- I1. destruct (Z.min_spec t x) as [[_ ->]|[_ ->]]; auto.
      + assert (fold_left Z.min l (Z.min t x) <= Z.min t x)%Z by (apply I2; now left).
        intros y [<-|[<-|Hy]]; [lia|lia|]. apply I2. now right. }
  destruct M as [M1 M2]. apply HI in M1. assert (A := M2 y (proj1 (HI y) (or_introl eq_refl))).
  inversion H; subst. rewrite Forall_forall in *. destruct M1 as [<-|M1]; [reflexivity|]. specialize (H3 _ M1). lia.
Qed.
Lemma unstack_first : forall a : arr V, grid_first (unstack a) = first_train a.
Proof.
  intros a. assert (E : grid_first (unstack a) = hd 0%Z (gr_trains (unstack a))) by (unfold grid_first, gr_trains; destruct (gr_rows (unstack a)); reflexivity).
  rewrite E, unstack_trains. unfold first_train. destruct (map (@frame_train V) (ar_frames a)) as [|t r]; [reflexivity|].
  apply fold_min. apply zsort_set_sorted.
Qed.
Lemma length_zero : forall A (l : list A), Nat.eqb (List.length l) 0 = true <-> l = [].
Proof. intros A [|x l]; simpl; split; intros; try reflexivity; discriminate. Qed.
Lemma zsort_set_nil : forall l, zsort_set l = [] <-> l = [].
Proof.
  intros l. split; [|intros ->; reflexivity]. intros H. destruct l as [|x l]; [reflexivity|]. exfalso.
  assert (X : In x (zsort_set (x :: l))) by (apply zsort_set_In; now left). rewrite H in X. exact X.
Qed.
Lemma unstack_nonempty : forall a : arr V, grid_nonempty (unstack a) = arr_nonempty a.
Proof.
  intros a. unfold grid_nonempty, arr_nonempty. f_equal. unfold unstack. cbn [gr_rows gr_pulses]. rewrite map_length.
  assert (X : forall l : list Z, Nat.eqb (List.length (zsort_set l)) 0 = Nat.eqb (List.length l) 0).
  { intros l. apply eq_true_iff_eq. rewrite !length_zero. apply zsort_set_nil. }
  rewrite !X, !map_length. destruct (Nat.eqb _ 0); reflexivity.
Qed.

(** The trains of two parts are separated. *)
Definition before (x y : arr V) : Prop := forall t t', In t (map (@frame_train V) (ar_frames x)) -> In t' (map (@frame_train V) (ar_frames y)) -> (t < t')%Z.
Definition apart (x y : arr V) : Prop := before x y \/ before y x.
Lemma first_train_In : forall a : arr V, ar_frames a <> [] -> In (first_train a) (map (@frame_train V) (ar_frames a)).
Proof.
  intros a H. rewrite <- unstack_first. rewrite <- (zsort_set_In _ (map _ _)), <- unstack_trains. unfold grid_first, gr_trains.
  destruct (gr_rows (unstack a)) as [|r l] eqn:E; [|now left]. exfalso. apply H.
  unfold unstack in E. cbn [gr_rows] in E. apply map_eq_nil, zsort_set_nil, map_eq_nil in E. exact E.
Qed.
Lemma apart_sorted : forall l : list (arr V), Forall (fun a => ar_frames a <> []) l -> ForallOrdPairs apart l ->
  StronglySorted (fun a b => (first_train a <= first_train b)%Z) l -> StronglySorted before l.
Proof.
  induction l as [|a l IH]; intros HN HA HS; [constructor|].
  inversion HN as [|? ? N1 N2]; subst. inversion HA as [|? ? A1 A2]; subst. inversion HS as [|? ? S1 S2]; subst.
  constructor; [auto|]. rewrite Forall_forall in *. intros b Hb. destruct (A1 b Hb) as [X|X]; [assumption|].
  exfalso. specialize (X (first_train b) (first_train a)). specialize (S2 b Hb).
  assert (first_train b < first_train a)%Z by (apply X; apply first_train_In; auto). lia.
Qed.
Lemma ordpairs_perm : forall A (R : A -> A -> Prop) l l', (forall x y, R x y -> R y x) -> Permutation l l' -> ForallOrdPairs R l -> ForallOrdPairs R l'.
Proof.
  intros A R l l' HS P. induction P as [|x l l' P IH|x y l|l l' l'' P1 IH1 P2 IH2]; intros H.
  - constructor.
  - inversion H; subst. constructor; [|auto]. eapply Permutation_Forall; eassumption.
  - inversion H as [|? ? H1 H2]; subst. inversion H2 as [|? ? H3 H4]; subst. inversion H1; subst.
    constructor; [constructor; auto|]. constructor; auto.
  - auto.
Qed.
Lemma ordpairs_filter : forall A (R : A -> A -> Prop) p l, ForallOrdPairs R l -> ForallOrdPairs R (filter p l).
Proof.
  intros A R p l H. induction H as [|x l Hx H IH]; [constructor|]. simpl. destruct (p x); [|assumption]. constructor; [|assumption].
  rewrite Forall_forall in *. intros y Hy. apply filter_In in Hy as [Hy _]. auto.
Qed.
Lemma sorted_concat : forall A (R : A -> A -> Prop) (f : A -> list Z) l, StronglySorted R l ->
  (forall x y t t', R x y -> In t (f x) -> In t' (f y) -> (t < t')%Z) -> (forall x, In x l -> StronglySorted Z.lt (f x)) ->
  StronglySorted Z.lt (flat_map f l).
Proof.
  intros A R f l H HR. induction H as [|x l H IH Hx]; intros HS; [constructor|]. simpl.
  assert (X : forall a b : list Z, StronglySorted Z.lt a -> StronglySorted Z.lt b -> (forall t t', In t a -> In t' b -> (t < t')%Z) -> StronglySorted Z.lt (a ++ b)).
  { clear. induction a as [|y a IH]; intros b Ha Hb Hab; [assumption|]. simpl. inversion Ha; subst. constructor.
    - apply IH; auto. intros; apply Hab; auto. now right.
    - apply Forall_app. split; [assumption|]. apply Forall_forall. intros t Ht. apply Hab; auto. now left. }
  apply X; [apply HS; now left|apply IH; intros; apply HS; now right|]. intros t t' Ht Ht'. apply in_flat_map in Ht' as (y & Hy & Ht').
  rewrite Forall_forall in Hx. eapply HR; eauto.
Qed.

Lemma concat_grids_spec : forall parts : list (arr V), Forall (fun a => NoDup (map fst (ar_frames a))) parts ->
  Forall (fun a => ~ In 0%Z (ar_item a)) parts -> ForallOrdPairs apart parts ->
  match concat_trains parts with
  | Ok a => exists g, concat_grids (map (@unstack V) parts) = Ok g /\ gr_item g = ar_item a /\
              grid_holds g (fun t p v => In (t, p, v) (ar_frames a))
  | Err e => concat_grids (map (@unstack V) parts) = Err e
  end.
Proof.
  intros parts HN HZ HA. unfold concat_trains, concat_grids.
  assert (Ef : filter grid_nonempty (map (@unstack V) parts) = map (@unstack V) (filter (@arr_nonempty V) parts)).
  { clear. induction parts as [|a l IH]; [reflexivity|]. simpl. rewrite unstack_nonempty, IH. destruct (arr_nonempty a); reflexivity. }
  rewrite Ef. clear Ef.
  assert (Hsub : forall x, In x (filter (@arr_nonempty V) parts) -> NoDup (map fst (ar_frames x)) /\ ar_frames x <> []).
  { intros x Hx. apply filter_In in Hx as [Hx He]. rewrite Forall_forall in HN. split; [auto|]. intros E. unfold arr_nonempty in He. rewrite E in He. discriminate. }
  apply (ordpairs_filter (@arr_nonempty V)) in HA.
  destruct (filter (@arr_nonempty V) parts) as [|a r] eqn:Eq.
  - destruct parts as [|a l]; [reflexivity|]. simpl. exists (unstack a). split; [reflexivity|]. split; [reflexivity|].
    apply unstack_holds. now inversion HN.
  - cbn [map]. change (unstack a :: map (@unstack V) r) with (map (@unstack V) (a :: r)).
    rewrite sort_key_map. rewrite (@sort_key_ext _ (fun x => grid_first (unstack x)) (@first_train V)) by exact unstack_first.
    set (srt := sort_key (@first_train V) (a :: r)).
    assert (P : Permutation (a :: r) srt) by apply sort_key_perm.
    assert (Hs : forall x, In x srt -> NoDup (map fst (ar_frames x)) /\ ar_frames x <> []).
    { intros x Hx. apply Hsub. eapply Permutation_in; [symmetry; exact P|exact Hx]. }
    assert (SB : StronglySorted before srt).
    { apply apart_sorted.
      - apply Forall_forall. intros x Hx. now apply Hs.
      - eapply ordpairs_perm; [|exact P|exact HA]. intros x y [H|H]; [now right|now left].
      - apply sort_key_sorted. }
    clearbody srt.
    destruct (@join_axis_spec (map (@gr_pulses V) (map (@unstack V) srt))) as (ps & Hps & HpS & HpI).
    { apply Forall_map, Forall_map, Forall_forall. intros x Hx. apply gh_pulses with (1 := unstack_holds (proj1 (Hs x Hx))). }
    rewrite Hps. cbn [bind].
    assert (Ei : forallb (fun b : grid V => zlist_eqb (gr_item (unstack a)) (gr_item b)) (map (@unstack V) r) =
                 forallb (fun b => zlist_eqb (ar_item a) (ar_item b)) r).
    { clear. induction r as [|b r IH]; [reflexivity|]. cbn [map forallb]. now rewrite IH. }
    rewrite Ei. destruct (forallb _ r); [|reflexivity]. eexists. split; [reflexivity|]. split; [reflexivity|].
    rewrite flat_map_concat_map, map_map, <- flat_map_concat_map.
    assert (HIf : forall t p v, In (t, p, v) (flat_map (@ar_frames V) srt) <-> exists x, In x srt /\ In (t, p, v) (ar_frames x)) by (intros; apply in_flat_map).
    assert (Htr : gr_trains (mk_grid (gr_item (unstack a)) ps (flat_map (fun x => map (fun row => (fst row, align None (gr_pulses (unstack x)) ps (snd row))) (gr_rows (unstack x))) srt)) =
                  flat_map (fun x => gr_trains (unstack x)) srt).
    { unfold gr_trains. cbn [gr_rows]. clear. induction srt as [|x l IH]; [reflexivity|]. cbn [flat_map]. rewrite map_app, IH. f_equal. rewrite map_map. reflexivity. }
    constructor.
    + rewrite Htr. apply sorted_concat with (1 := SB).
      * intros x y t t' Hxy Ht Ht'. rewrite unstack_trains in *. apply (proj1 (zsort_set_In _ _)) in Ht. apply (proj1 (zsort_set_In _ _)) in Ht'. exact (Hxy _ _ Ht Ht').
      * intros x Hx. apply gh_trains with (1 := unstack_holds (proj1 (Hs x Hx))).
    + exact HpS.
    + intros t. rewrite Htr, in_flat_map. cbn [ar_frames]. split.
      * intros (x & Hx & Ht). apply (gh_tin (unstack_holds (proj1 (Hs x Hx)))) in Ht as (p & v & Ht). exists p, v. apply HIf. eauto.
      * intros (p & v & H). apply HIf in H as (x & Hx & H). exists x. split; [assumption|]. apply (gh_tin (unstack_holds (proj1 (Hs x Hx)))). eauto.
    + intros p. cbn [gr_pulses ar_frames]. rewrite HpI. split.
      * intros (q & Hq & Hp). apply in_map_iff in Hq as (g & <- & Hg). apply in_map_iff in Hg as (x & <- & Hx).
        apply (gh_pin (unstack_holds (proj1 (Hs x Hx)))) in Hp as (t & v & Ht). exists t, v. apply HIf. eauto.
      * intros (t & v & H). apply HIf in H as (x & Hx & H). exists (gr_pulses (unstack x)). split; [now apply in_map, in_map|].
        apply (gh_pin (unstack_holds (proj1 (Hs x Hx)))). eauto.
    + intros t row H. cbn [gr_rows gr_pulses] in *. apply in_flat_map in H as (x & Hx & H). apply in_map_iff in H as ([t' row'] & E & H). cbn [fst snd] in E. injection E as <- <-.
      apply align_length. exact (gh_width (unstack_holds (proj1 (Hs x Hx))) H).
    + intros t row p c H Hc v. cbn [gr_rows gr_pulses ar_frames] in *. apply in_flat_map in H as (x & Hx & H).
      apply in_map_iff in H as ([t' row'] & E & H). cbn [fst snd] in E. injection E as <- <-.
      assert (U := unstack_holds (proj1 (Hs x Hx))).
      assert (Hall : forall v, In (t', p, v) (flat_map (@ar_frames V) srt) <-> In (t', p, v) (ar_frames x)).
      { intros w. rewrite HIf. split; [|eauto]. intros (y & Hy & Hw).
        assert (Htx : In t' (map (@frame_train V) (ar_frames x))).
        { apply (in_map fst) in H. cbn [fst] in H. change (map fst (gr_rows (unstack x))) with (gr_trains (unstack x)) in H.
          rewrite unstack_trains in H. now apply (proj1 (zsort_set_In _ _)) in H. }
        assert (Hty : In t' (map (@frame_train V) (ar_frames y))) by (apply in_map_iff; exists (t', p, w); auto).
        assert (Hno : x = y \/ before x y \/ before y x).
        { clear -SB Hx Hy. induction SB as [|z l S IH Hz]; [destruct Hx|]. rewrite Forall_forall in Hz. destruct Hx as [->|Hx], Hy as [->|Hy]; auto. }
        destruct Hno as [->|[B|B]]; [assumption| |]; exfalso; [specialize (B t' t' Htx Hty)|specialize (B t' t' Hty Htx)]; lia. }
      rewrite Hall. apply align_spec in Hc.
      * destruct Hc as [Hc|[Hc ->]]; [exact (gh_cell U H Hc v)|]. split; [discriminate|]. intros Hv. exfalso. apply Hc.
        apply (gh_pin U). eauto.
      * apply StronglySorted_NoDup_lt, (gh_pulses U).
      * exact (gh_width U H).
Qed.

(** ** All modules *)
Lemma concat_modules_spec : forall (l : list (Z * grid V)) (F : Z -> Z -> Z -> V -> Prop),
  NoDup (map fst l) -> (forall n g, In (n, g) l -> grid_holds g (F n)) ->
  (same_items (fun p => gr_item (snd p)) l = false -> concat_modules l = Err EValueError) /\
  (same_items (fun p => gr_item (snd p)) l = true -> exists r, concat_modules l = Ok r /\
    dg_modules r = map fst l /\
    StronglySorted Z.lt (dg_trains r) /\ StronglySorted Z.lt (dg_pulses r) /\
    (forall t, In t (dg_trains r) <-> exists n p v, In n (map fst l) /\ F n t p v) /\
    (forall p, In p (dg_pulses r) <-> exists n t v, In n (map fst l) /\ F n t p v) /\
    List.length (dg_cells r) = List.length l /\
    (forall n plane, In (n, plane) (combine (map fst l) (dg_cells r)) -> List.length plane = List.length (dg_trains r) /\
       forall t row, In (t, row) (combine (dg_trains r) plane) -> List.length row = List.length (dg_pulses r) /\
       forall p c, In (p, c) (combine (dg_pulses r) row) -> forall v, c = Some v <-> F n t p v)).
Proof.
  intros l F HN HF. unfold concat_modules.
  destruct (@join_axis_spec (map (fun p => gr_trains (snd p)) l)) as (ts & Hts & HtS & HtI).
  { apply Forall_map, Forall_forall. intros [n g] Hg. exact (gh_trains (HF n g Hg)). }
  destruct (@join_axis_spec (map (fun p => gr_pulses (snd p)) l)) as (ps & Hps & HpS & HpI).
  { apply Forall_map, Forall_forall. intros [n g] Hg. exact (gh_pulses (HF n g Hg)). }
  rewrite Hts, Hps. cbn [bind]. split; [intros ->; reflexivity|]. intros ->. eexists. split; [reflexivity|].
  cbn [dg_modules dg_trains dg_pulses dg_cells]. split; [reflexivity|]. split; [assumption|]. split; [assumption|]. split; [|split; [|split]].
  - intros t. rewrite HtI. split.
    + intros (q & Hq & Ht). apply in_map_iff in Hq as ([n g] & <- & Hg). apply (gh_tin (HF n g Hg)) in Ht as (p & v & Ht).
      exists n, p, v. split; [|assumption]. apply in_map_iff. exists (n, g). auto.
    + intros (n & p & v & Hn & H). apply in_map_iff in Hn as ([n' g] & E & Hg). simpl in E. subst n'. exists (gr_trains g).
      split; [apply in_map_iff; exists (n, g); auto|]. apply (gh_tin (HF n g Hg)). eauto.
  - intros p. rewrite HpI. split.
    + intros (q & Hq & Ht). apply in_map_iff in Hq as ([n g] & <- & Hg). apply (gh_pin (HF n g Hg)) in Ht as (t & v & Ht).
      exists n, t, v. split; [|assumption]. apply in_map_iff. exists (n, g). auto.
    + intros (n & t & v & Hn & H). apply in_map_iff in Hn as ([n' g] & E & Hg). simpl in E. subst n'. exists (gr_pulses g).
      split; [apply in_map_iff; exists (n, g); auto|]. apply (gh_pin (HF n g Hg)). eauto.
  - apply map_length.
  - intros n plane H.
    assert (X : exists g, In (n, g) l /\ plane = align (map (fun _ => None) ps) (gr_trains g) ts (map (fun row => align None (gr_pulses g) ps (snd row)) (gr_rows g))).
    { clear -H. induction l as [|[n' g] l IH]; [destruct H|]. simpl in H. destruct H as [E|H].
      - injection E as <- <-. exists g. split; [now left|reflexivity].
      - destruct (IH H) as (g' & I1 & I2). exists g'. split; [now right|assumption]. }
    destruct X as (g & Hg & ->). assert (U := HF n g Hg). assert (HL : List.length (map (fun row => align None (gr_pulses g) ps (snd row)) (gr_rows g)) = List.length (gr_trains g)).
    { unfold gr_trains. now rewrite !map_length. }
    split; [now apply align_length|]. intros t row Hr. apply align_spec in Hr; [|apply StronglySorted_NoDup_lt, (gh_trains U)|assumption].
    destruct Hr as [Hr|[Hr ->]].
    + assert (Y : exists row', In (t, row') (gr_rows g) /\ row = align None (gr_pulses g) ps row').
      { clear -Hr. unfold gr_trains in Hr. induction (gr_rows g) as [|[t' r'] q IH]; [destruct Hr|]. simpl in Hr. destruct Hr as [E|Hr].
        - injection E as <- <-. exists r'. split; [now left|reflexivity].
        - destruct (IH Hr) as (r'' & I1 & I2). exists r''. split; [now right|assumption]. }
      destruct Y as (row' & Hrow & ->). split; [apply align_length; exact (gh_width U Hrow)|]. intros p c Hc v.
      apply align_spec in Hc; [|apply StronglySorted_NoDup_lt, (gh_pulses U)|exact (gh_width U Hrow)].
      destruct Hc as [Hc|[Hc ->]]; [exact (gh_cell U Hrow Hc v)|]. split; [discriminate|]. intros Hv. exfalso. apply Hc, (gh_pin U). eauto.
    + split; [apply map_length|]. intros p c Hc v. apply combine_map_self in Hc as [_ ->]. split; [discriminate|]. intros Hv. exfalso.
      apply Hr, (gh_tin U). eauto.
Qed.
End G.
