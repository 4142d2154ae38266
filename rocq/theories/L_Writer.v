(** Lemmas about the writer. *)
From Verif Require Import Base PyStr M_Files M_Machinery M_Reader M_Select M_Writer S_Reader S_Coll S_Avail S_Open S_Writer
  L_Base L_Machinery L_Reader L_GetArray L_Select L_Array2 L_Trains L_Hist L_Union L_Open.
Set Implicit Arguments.
Unset Strict Implicit.
Local Open Scope string_scope.
Local Open Scope list_scope.

(** ** Index arithmetic *)
Lemma np_diff_nonneg : forall l, forallb (fun x => 0 <=? x)%Z (np_diff_u64 l) = true.
Proof.
  induction l as [|x l IH]; [reflexivity|]. destruct l as [|y l]; [reflexivity|].
  change (np_diff_u64 (x :: y :: l)) with (u64 (y - x) :: np_diff_u64 (y :: l)). cbn [forallb].
  rewrite IH, andb_true_r. apply Z.leb_le. unfold u64. apply Z.mod_pos_bound. lia.
Qed.

Fixpoint firsts_from (acc : Z) (l : list Z) : list Z :=
  match l with [] => [] | c :: r => acc :: firsts_from (acc + c) r end.
Lemma make_firsts_from : forall counts, make_firsts counts = firsts_from 0 counts.
Proof.
  assert (G : forall r acc c, acc :: removelast (cumsum_from acc (c :: r)) = firsts_from acc (c :: r)).
  { induction r as [|c' r IH]; intros acc c; [reflexivity|]. simpl firsts_from. f_equal.
    specialize (IH (acc + c)%Z c'). simpl in IH |- *. destruct r; exact IH. }
  intros [|c r]; [reflexivity|]. exact (G r 0%Z c).
Qed.
Lemma firsts_from_length : forall l acc, List.length (firsts_from acc l) = List.length l.
Proof. induction l as [|c l IH]; intros acc; simpl; [reflexivity|]. now rewrite IH. Qed.
Lemma firsts_from_nth : forall l acc p, (p < List.length l)%nat ->
  nth_error (firsts_from acc l) p = Some (acc + zsum (firstn p l))%Z.
Proof.
  induction l as [|c l IH]; intros acc p H; simpl in H; [lia|]. destruct p as [|p]; simpl; [f_equal; lia|].
  rewrite IH by lia. f_equal. lia.
Qed.
Lemma firstn_S_nth : forall A (l : list A) p x, nth_error l p = Some x -> firstn (S p) l = firstn p l ++ [x].
Proof.
  induction l as [|y l IH]; intros [|p] x H; try discriminate; simpl in *; [congruence|]. f_equal. now apply IH.
Qed.

Lemma make_firsts_valid : forall counts n, Forall (fun c => 0 <= c)%Z counts -> zsum counts = Z.of_nat n ->
  valid_index (List.length counts) n (mk_ix (make_firsts counts) (IxCount counts)).
Proof.
  intros counts n Hc Hs. exists counts. rewrite make_firsts_from. cbn [ix_first ix_more].
  split; [reflexivity|]. split; [apply firsts_from_length|]. split; [reflexivity|].
  assert (N : forall p a, nth_error (firsts_from 0 counts) p = Some a -> a = zsum (firstn p counts)).
  { intros p a H. pose proof (nth_error_Some_lt _ _ H) as Hl. rewrite firsts_from_length in Hl.
    rewrite firsts_from_nth in H by assumption. injection H as <-. lia. }
  split; [intros a H; now rewrite (N _ _ H)|]. split; [|split; [assumption|]].
  - intros p a c b Ha Hcc Hb. rewrite (N _ _ Ha), (N _ _ Hb), (firstn_S_nth Hcc), zsum_app. simpl. lia.
  - intros a c Ha Hcc. rewrite (N _ _ Ha), <- Hs. pose proof (nth_error_Some_lt _ _ Hcc) as Hl.
    rewrite <- (firstn_all counts) at 3.
    replace (List.length counts) with (S (List.length counts - 1)) at 2 by lia.
    rewrite (firstn_S_nth Hcc), zsum_app. simpl. lia.
Qed.

(** ** Counting labels *)
Definition label_counts (tids labels : list Z) : list Z := map (count_tid labels) tids.

Lemma count_tid_nonneg : forall l t, (0 <= count_tid l t)%Z.
Proof. intros. unfold count_tid. lia. Qed.
Lemma count_tid_cons : forall x l t, count_tid (x :: l) t = ((if t =? x then 1 else 0) + count_tid l t)%Z.
Proof. intros x l t. unfold count_tid. simpl. destruct (t =? x)%Z; simpl List.length; lia. Qed.
Lemma count_tid_zero : forall l t, ~ In t l -> count_tid l t = 0%Z.
Proof.
  induction l as [|x l IH]; intros t H; [reflexivity|]. rewrite count_tid_cons, IH by (intros X; apply H; now right).
  destruct (Z.eqb_spec t x); [subst; exfalso; apply H; now left|reflexivity].
Qed.
Lemma label_counts_sum : forall tids labels, NoDup tids -> incl labels tids ->
  zsum (label_counts tids labels) = Z.of_nat (List.length labels).
Proof.
  intros tids labels HN. induction labels as [|x l IH]; intros Hi.
  - unfold label_counts. clear. induction tids as [|t tids IH]; [reflexivity|]. simpl. exact IH.
  - assert (Hx : In x tids) by (apply Hi; now left).
    assert (Hl : incl l tids) by (intros y Hy; apply Hi; now right). specialize (IH Hl).
    change (List.length (x :: l)) with (S (List.length l)). rewrite Nat2Z.inj_succ, <- IH. unfold label_counts.
    clear -HN Hx. induction tids as [|t tids IHt]; [destruct Hx|]. inversion HN as [|? ? Hnt HN']; subst.
    simpl map. cbn [zsum fold_right]. fold (zsum (map (count_tid (x :: l)) tids)). fold (zsum (map (count_tid l) tids)).
    rewrite count_tid_cons. destruct Hx as [->|Hx].
    + rewrite Z.eqb_refl. assert (E : map (count_tid (x :: l)) tids = map (count_tid l) tids).
      { apply map_ext_in. intros y Hy. rewrite count_tid_cons. destruct (Z.eqb_spec y x); [subst; contradiction|reflexivity]. }
      rewrite E. lia.
    + rewrite IHt by assumption. destruct (Z.eqb_spec t x); [subst; contradiction|]. lia.
Qed.

Lemma sorted_split : forall l t, StronglySorted Z.le l -> Forall (fun x => t <= x)%Z l ->
  l = repeat t (Z.to_nat (count_tid l t)) ++ filter (fun x => negb (x =? t)%Z) l /\
  StronglySorted Z.le (filter (fun x => negb (x =? t)%Z) l).
Proof.
  induction l as [|x l IH]; intros t Hs Hf; [split; [reflexivity|constructor]|].
  inversion Hs as [|? ? Hs' Hx]; subst. inversion Hf as [|? ? Htx Hf']; subst.
  destruct (IH t Hs' Hf') as [E S]. rewrite count_tid_cons. simpl filter. rewrite Z.eqb_sym.
  destruct (Z.eqb_spec x t) as [->|N]; simpl negb; cbn [filter].
  - split; [|exact S]. rewrite Z2Nat.inj_add by (try lia; apply count_tid_nonneg). simpl. f_equal. exact E.
  - assert (Z0 : count_tid l t = 0%Z).
    { apply count_tid_zero. intros Hin. rewrite Forall_forall in Hx. specialize (Hx t Hin). lia. }
    rewrite Z0 in *. simpl in *. split; [now f_equal|]. constructor; [exact S|]. rewrite <- E. exact Hx.
Qed.

Lemma repeat_label_counts : forall tids labels, StronglySorted Z.lt tids -> StronglySorted Z.le labels ->
  incl labels tids -> np_repeat tids (label_counts tids labels) = labels.
Proof.
  induction tids as [|t tids IH]; intros labels Ht Hl Hi.
  - destruct labels as [|x l]; [reflexivity|]. destruct (Hi x); now left.
  - inversion Ht as [|? ? Ht' Hlt]; subst.
    assert (Hge : Forall (fun x => t <= x)%Z labels).
    { apply Forall_forall. intros x Hx. apply Hi in Hx as [->|Hx]; [lia|]. rewrite Forall_forall in Hlt. specialize (Hlt x Hx). lia. }
    destruct (sorted_split Hl Hge) as [E S].
    unfold np_repeat, label_counts. simpl. rewrite E at 3. f_equal.
    assert (Hn : ~ In t tids) by (intros X; rewrite Forall_forall in Hlt; specialize (Hlt t X); lia).
    rewrite <- (IH (filter (fun x => negb (x =? t)%Z) labels)); [|assumption|assumption|].
    + unfold np_repeat, label_counts. f_equal. f_equal. apply map_ext_in. intros y Hy.
      unfold count_tid. f_equal. f_equal. clear -Hy Hn. induction labels as [|x l IH]; [reflexivity|]. simpl.
      destruct (Z.eqb_spec x t) as [->|N]; simpl.
      * destruct (Z.eqb_spec y t); [subst; contradiction|exact IH].
      * destruct (y =? x)%Z; [f_equal; exact IH|exact IH].
    + intros x Hx. apply filter_In in Hx as [Hx Hne]. apply negb_true_iff, Z.eqb_neq in Hne.
      apply Hi in Hx as [->|Hx]; [congruence|assumption].
Qed.

Lemma label_counts_length : forall tids labels, List.length (label_counts tids labels) = List.length tids.
Proof. intros. apply map_length. Qed.
Lemma label_counts_nonneg : forall tids labels, Forall (fun c => 0 <= c)%Z (label_counts tids labels).
Proof. intros. apply Forall_forall. intros c Hc. apply in_map_iff in Hc as (t & <- & _). apply count_tid_nonneg. Qed.

(** Both kinds of index are the counts of the labels. *)
Lemma generate_index_counts : forall tids labels,
  generate_index tids labels = Ok (make_firsts (label_counts tids labels), label_counts tids labels).
Proof. intros. unfold generate_index. rewrite np_diff_nonneg. reflexivity. Qed.
Lemma zdedup_length_NoDup : forall l, List.length (zsort_set l) = List.length l -> NoDup l.
Proof.
  intros l H. unfold zsort_set, zsort in H. rewrite <- (Permutation_length (sort_key_perm _ _)) in H.
  apply (@NoDup_incl_NoDup _ (zdedup l)); [apply zdedup_NoDup|lia|].
  intros x Hx. now apply zdedup_In.
Qed.
Lemma NoDup_zsort_length : forall l, NoDup l -> List.length (zsort_set l) = List.length l.
Proof.
  intros l H. unfold zsort_set, zsort. rewrite <- (Permutation_length (sort_key_perm _ _)).
  apply Nat.le_antisymm; apply NoDup_incl_length; auto using zdedup_NoDup; intros x Hx; now apply zdedup_In.
Qed.
Lemma control_index_counts : forall tids labels v,
  control_index tids labels = Ok v ->
  NoDup labels /\ v = (make_firsts (label_counts tids labels), label_counts tids labels).
Proof.
  intros tids labels v. unfold control_index. destruct (Nat.eqb _ _) eqn:E; [|discriminate]. simpl.
  apply Nat.eqb_eq in E. apply zdedup_length_NoDup in E. intros H. split; [assumption|]. injection H as <-.
  assert (X : map (fun b : bool => if b then 1%Z else 0%Z) (np_isin tids labels) = label_counts tids labels).
  { unfold np_isin, label_counts. rewrite map_map. apply map_ext. intros t. clear -E.
    induction labels as [|x l IH]; [reflexivity|]. inversion E as [|? ? Hx E']; subst. rewrite count_tid_cons, <- IH by assumption.
    simpl. destruct (Z.eqb_spec t x) as [->|N]; simpl; [|reflexivity].
    destruct (z_in x l) eqn:F; [|reflexivity]. apply z_in_iff in F. contradiction. }
  now rewrite X.
Qed.
Lemma control_index_ok : forall tids labels, NoDup labels -> exists v, control_index tids labels = Ok v.
Proof.
  intros tids labels H. unfold control_index. rewrite (NoDup_zsort_length H), Nat.eqb_refl. simpl. eauto.
Qed.
