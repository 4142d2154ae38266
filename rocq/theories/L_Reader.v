(** Lemmas about the reader model: index, chunks and get_array. *)
From Verif Require Import Base PyStr M_Files M_Machinery M_Reader S_Reader L_Base L_Machinery.
Set Implicit Arguments.
Local Open Scope string_scope.
Local Open Scope list_scope.

(** ** Strings *)
Lemma key_group_before_dot : forall k, key_group k = before_dot k.
Proof.
  unfold key_group; induction k as [|c k IH]; simpl; [reflexivity|].
  destruct (Ascii.eqb c dot) eqn:E; unfold dot in E; rewrite E; [reflexivity|].
  destruct (py_partition dot k) as [[x y] z]; simpl in *. now rewrite IH.
Qed.
Lemma replace_dots : forall k, py_replace dot slash k = dots_to_slashes k.
Proof.
  induction k as [|c k IH]; simpl; [reflexivity|]. now rewrite IH.
Qed.
Lemma ix_path_inst : forall s k, ix_path s (key_group k) = index_key false s k.
Proof. intros; unfold ix_path, index_key; now rewrite key_group_before_dot. Qed.
Lemma ix_path_ctrl : forall s k, ix_path s "" = index_key true s k.
Proof. reflexivity. Qed.
Lemma ds_path_ctrl : forall s k, ds_path "CONTROL" s k = data_key true s k.
Proof. intros; unfold ds_path, data_key; now rewrite replace_dots. Qed.
Lemma ds_path_inst : forall s k, ds_path "INSTRUMENT" s k = data_key false s k.
Proof. intros; unfold ds_path, data_key; now rewrite replace_dots. Qed.

(** ** Lists *)
Lemma combine_app : forall A B (a1 a2 : list A) (b1 b2 : list B),
  List.length a1 = List.length b1 -> combine (a1 ++ a2) (b1 ++ b2) = combine a1 b1 ++ combine a2 b2.
Proof.
  induction a1 as [|x a1 IH]; intros a2 [|y b1] b2 H; simpl in *; try discriminate; [reflexivity|].
  f_equal. apply IH. lia.
Qed.
Lemma combine_repeat : forall A B (t : A) (l : list B) n,
  List.length l = n -> combine (repeat t n) l = map (pair t) l.
Proof.
  intros A B t; induction l as [|x l IH]; intros n H; destruct n; simpl in *; try discriminate; [reflexivity|].
  f_equal. apply IH. lia.
Qed.
Lemma combine_flat_map : forall A B C (f : A -> list B) (g : A -> list C) l,
  (forall x, In x l -> List.length (f x) = List.length (g x)) ->
  combine (flat_map f l) (flat_map g l) = flat_map (fun x => combine (f x) (g x)) l.
Proof.
  intros A B C f g; induction l as [|x l IH]; intros H; simpl; [reflexivity|].
  rewrite combine_app by (apply H; now left). rewrite IH; [reflexivity|]. intros; apply H; now right.
Qed.
Lemma flat_map_length_eq : forall A B C (f : A -> list B) (g : A -> list C) l,
  (forall x, In x l -> List.length (f x) = List.length (g x)) ->
  List.length (flat_map f l) = List.length (flat_map g l).
Proof.
  intros A B C f g; induction l as [|x l IH]; intros H; simpl; [reflexivity|].
  rewrite !app_length, (H x (or_introl eq_refl)), IH; [reflexivity|]. intros; apply H; now right.
Qed.
Lemma nonzero_from_S : forall l i, nonzero_from (S i) l = map S (nonzero_from i l).
Proof.
  induction l as [|b l IH]; intros i; simpl; [reflexivity|]. destruct b; simpl; now rewrite IH.
Qed.
Lemma nonzero_from_sorted : forall l i, StronglySorted lt (nonzero_from i l).
Proof.
  induction l as [|b l IH]; intros i; simpl; [constructor|].
  destruct b; [|apply IH]. constructor; [apply IH|].
  apply Forall_forall. intros x Hx. apply nonzero_from_spec in Hx. lia.
Qed.
Lemma sorted_nat_ext : forall l1 l2,
  StronglySorted lt l1 -> StronglySorted lt l2 -> (forall x, In x l1 <-> In x l2) -> l1 = l2.
Proof.
  induction l1 as [|x l1 IH]; intros [|y l2] H1 H2 E.
  - reflexivity.
  - exfalso. apply (E y). now left.
  - exfalso. apply (E x). now left.
  - inversion H1; subst; inversion H2; subst. rewrite Forall_forall in *.
    assert (x = y).
    { destruct (E x) as [E1 _]. destruct (E1 (or_introl eq_refl)) as [->|Hx]; [reflexivity|].
      destruct (E y) as [_ E2]. destruct (E2 (or_introl eq_refl)) as [->|Hy]; [reflexivity|].
      specialize (H4 _ Hy). specialize (H6 _ Hx). lia. }
    subst y. f_equal. apply IH; try assumption.
    intros z; split; intros Hz.
    + destruct (E z) as [E1 _]. destruct (E1 (or_intror Hz)) as [->|]; [|assumption].
      specialize (H4 _ Hz). lia.
    + destruct (E z) as [_ E1]. destruct (E1 (or_intror Hz)) as [->|]; [|assumption].
      specialize (H6 _ Hz). lia.
Qed.
Lemma seq_sorted : forall n a, StronglySorted lt (seq a n).
Proof.
  induction n as [|n IH]; intros a; simpl; constructor; [apply IH|].
  apply Forall_forall. intros x Hx. apply in_seq in Hx. lia.
Qed.
Lemma SS_app : forall A (R : A -> A -> Prop) a b,
  StronglySorted R a -> StronglySorted R b -> (forall x y, In x a -> In y b -> R x y) ->
  StronglySorted R (a ++ b).
Proof.
  induction a as [|x a IH]; intros b Ha Hb H; simpl; [assumption|].
  inversion Ha; subst. constructor.
  - apply IH; [assumption|assumption|]. intros; apply H; [now right|assumption].
  - apply Forall_app; split; [assumption|]. apply Forall_forall. intros y Hy. apply H; [now left|assumption].
Qed.

(** The regions of a mask enumerate the selected positions in order. *)
Lemma regions_nonzero : forall mask rs, maximal_regions mask rs ->
  flat_map (fun r => seq (fst r) (snd r - fst r)) rs = nonzero mask.
Proof.
  intros mask rs (Hc & Hne & Hs). apply sorted_nat_ext.
  - clear Hc. induction rs as [|[a b] rs IH]; simpl; [constructor|].
    inversion Hs; subst; inversion Hne; subst. apply SS_app; [apply seq_sorted|auto|].
    intros x y Hx Hy. apply in_seq in Hx. apply in_flat_map in Hy as ([a' b'] & Hr & Hy).
    apply in_seq in Hy. rewrite Forall_forall in H2. specialize (H2 _ Hr). simpl in *. lia.
  - apply nonzero_from_sorted.
  - intros x. rewrite nonzero_spec, Hc, in_flat_map. split.
    + intros ([a b] & Hr & Hx). apply in_seq in Hx. simpl in Hx. exists a, b. split; [assumption|lia].
    + intros (a & b & Hr & Hx). exists (a, b). split; [assumption|]. apply in_seq. simpl. lia.
Qed.

Lemma nslice_seq : forall A (l : list A) a b, (b <= List.length l)%nat ->
  nslice l a b = flat_map (fun i => match nth_error l i with Some x => [x] | None => [] end) (seq a (b - a)).
Proof.
  intros A l a b H. unfold nslice. remember (b - a)%nat as n.
  assert (a + n <= List.length l \/ n = 0)%nat as [Hl|Hn] by lia; [|subst n; rewrite Hn; reflexivity].
  clear Heqn H b. revert a Hl. induction n as [|n IH]; intros a Hl; [reflexivity|].
  simpl. rewrite <- IH by lia. assert (exists x, nth_error l a = Some x) as [x Hx] by (apply nth_error_ex; lia). rewrite Hx.
  assert (Hsk : skipn a l = x :: skipn (S a) l).
  { clear -Hx. revert l Hx. induction a as [|a IH]; intros [|y l] Hx; simpl in *; try discriminate.
    - now injection Hx as ->.
    - rewrite (IH _ Hx). destruct l; reflexivity. }
  rewrite Hsk. reflexivity.
Qed.

Lemma pick_nonzero : forall A (q : A -> bool) (l : list A),
  flat_map (fun i => match nth_error l i with Some x => [x] | None => [] end) (nonzero (map q l)) = filter q l.
Proof.
  intros A q; unfold nonzero; induction l as [|x l IH]; simpl; [reflexivity|].
  rewrite nonzero_from_S. destruct (q x); simpl; rewrite flat_map_map; simpl; now rewrite IH.
Qed.

Lemma regions_bound : forall mask rs a b, maximal_regions mask rs -> In (a, b) rs ->
  (a < b <= List.length mask)%nat.
Proof.
  intros mask rs a b (Hc & Hne & _) Hr. rewrite Forall_forall in Hne. specialize (Hne _ Hr). simpl in Hne.
  split; [assumption|]. assert (nth_error mask (b - 1) = Some true) by (apply Hc; exists a, b; split; [assumption|lia]).
  apply nth_error_Some_lt in H. lia.
Qed.

Lemma regions_filter : forall A (q : A -> bool) (l : list A) rs,
  maximal_regions (map q l) rs ->
  flat_map (fun r => nslice l (fst r) (snd r)) rs = filter q l.
Proof.
  intros A q l rs H. rewrite <- pick_nonzero, <- (regions_nonzero H).
  assert (G : forall rs', (forall r, In r rs' -> In r rs) ->
    flat_map (fun r => nslice l (fst r) (snd r)) rs' =
    flat_map (fun i => match nth_error l i with Some x => [x] | None => [] end)
      (flat_map (fun r => seq (fst r) (snd r - fst r)) rs')).
  { induction rs' as [|[a b] rs' IH]; intros Hin; simpl; [reflexivity|].
    rewrite flat_map_app, <- IH by (intros; apply Hin; now right). f_equal. apply nslice_seq.
    destruct (@regions_bound _ _ a b H) as [_ Hb]; [apply Hin; now left|]. now rewrite map_length in Hb. }
  apply G; auto.
Qed.

Lemma nslice_map : forall A B (f : A -> B) l a b, nslice (map f l) a b = map f (nslice l a b).
Proof. intros; unfold nslice. now rewrite skipn_map, firstn_map. Qed.
Lemma nslice_nth : forall A (l : list A) a b i,
  nth_error (nslice l a b) i = if (i <? b - a)%nat then nth_error l (a + i) else None.
Proof. intros; unfold nslice. rewrite nth_error_firstn, nth_error_skipn. reflexivity. Qed.

Lemma zslice_app : forall A (l : list A) a c s, (0 <= a)%Z -> (0 <= c)%Z -> (0 <= s)%Z ->
  zslice l a (a + (c + s)) = zslice l a (a + c) ++ zslice l (a + c) (a + c + s).
Proof.
  intros A l a c s Ha Hc Hs. unfold zslice.
  replace (Z.to_nat (a + (c + s) - a)) with (Z.to_nat c + Z.to_nat s)%nat by lia.
  replace (Z.to_nat (a + c - a)) with (Z.to_nat c) by lia.
  replace (Z.to_nat (a + c + s - (a + c))) with (Z.to_nat s) by lia.
  rewrite firstn_add, skipn_skipn. replace (Z.to_nat (a + c)) with (Z.to_nat a + Z.to_nat c)%nat by lia.
  reflexivity.
Qed.
Lemma zslice_length_le : forall A (l : list A) a b, (List.length (zslice l a b) <= Z.to_nat (b - a))%nat.
Proof. intros; unfold zslice. apply firstn_le_length. Qed.

Lemma np_repeat_length : forall A (vals : list A) counts,
  List.length vals = List.length counts -> Forall (fun c => 0 <= c)%Z counts ->
  Z.of_nat (List.length (np_repeat vals counts)) = zsum counts.
Proof.
  unfold np_repeat; induction vals as [|v vals IH]; intros [|c counts] H F; simpl in *; try discriminate; [reflexivity|].
  inversion F; subst. rewrite app_length, repeat_length, Nat2Z.inj_add, IH by (assumption || lia). lia.
Qed.

(** ** Entries: (train ID, (first, count)) *)
Definition entry := (Z * (Z * Z))%type.
Definition e_first (e : entry) := fst (snd e).
Definition e_count (e : entry) := snd (snd e).
Definition entries (tids firsts counts : list Z) : list entry := combine tids (combine firsts counts).
Definition contig (E : list entry) : Prop :=
  forall i e e', nth_error E i = Some e -> nth_error E (S i) = Some e' ->
                 e_first e' = (e_first e + e_count e)%Z.
Definition nonneg_entries (E : list entry) : Prop :=
  Forall (fun e => 0 <= e_first e /\ 0 <= e_count e)%Z E.

Lemma entries_fst : forall tids firsts counts,
  List.length firsts = List.length tids -> List.length counts = List.length tids ->
  map fst (entries tids firsts counts) = tids.
Proof.
  unfold entries; induction tids as [|t tids IH]; intros [|f firsts] [|c counts] H1 H2; simpl in *; try discriminate; [reflexivity|].
  f_equal; apply IH; lia.
Qed.
Lemma entries_count : forall tids firsts counts,
  List.length firsts = List.length tids -> List.length counts = List.length tids ->
  map e_count (entries tids firsts counts) = counts.
Proof.
  unfold entries; induction tids as [|t tids IH]; intros [|f firsts] [|c counts] H1 H2; simpl in *; try discriminate; [reflexivity|].
  f_equal; apply IH; lia.
Qed.
Lemma entries_nth : forall tids firsts counts i t a c,
  nth_error (entries tids firsts counts) i = Some (t, (a, c)) <->
  nth_error tids i = Some t /\ nth_error firsts i = Some a /\ nth_error counts i = Some c.
Proof.
  unfold entries; induction tids as [|t0 tids IH]; intros firsts counts i t a c.
  - simpl. destruct i; simpl; intuition discriminate.
  - destruct firsts as [|f firsts]; [|destruct counts as [|c0 counts]]; simpl.
    + destruct i; simpl; intuition discriminate.
    + destruct i; simpl; intuition discriminate.
    + destruct i; simpl; [|apply IH]. split.
      * intros H; injection H as -> -> ->; auto.
      * intros (H1 & H2 & H3); injection H1 as ->; injection H2 as ->; injection H3 as ->; reflexivity.
Qed.
Lemma contig_nslice : forall E a b, contig E -> contig (nslice E a b).
Proof.
  intros E a b H i e e'. rewrite !nslice_nth.
  destruct (i <? b - a)%nat; [|discriminate]. destruct (S i <? b - a)%nat; [|discriminate].
  rewrite Nat.add_succ_r. apply H.
Qed.
Lemma nslice_incl : forall A (l : list A) a b x, In x (nslice l a b) -> In x l.
Proof.
  intros A l a b x H. apply In_nth_error in H as [i H]. rewrite nslice_nth in H.
  destruct (_ <? _)%nat; [|discriminate]. eapply nth_error_In; eassumption.
Qed.

Section Rows.
Context {V : Type}.

(** The labelled rows of one train's entry in a dataset. *)
Definition entry_rows (rows : list V) (e : entry) : list (Z * V) :=
  map (pair (fst e)) (zslice rows (e_first e) (e_first e + e_count e)).

Lemma labelled_chunk : forall (rows : list V) E a,
  contig E -> nonneg_entries E -> (0 <= a)%Z ->
  match E with e :: _ => e_first e = a | [] => True end ->
  Z.of_nat (List.length (zslice rows a (a + zsum (map e_count E)))) = zsum (map e_count E) ->
  combine (np_repeat (map fst E) (map e_count E)) (zslice rows a (a + zsum (map e_count E)))
  = flat_map (entry_rows rows) E.
Proof.
  intros rows; induction E as [|e E IH]; intros a Hc Hn Ha Hh Hl; simpl.
  - unfold np_repeat; reflexivity.
  - simpl in Hl, Hh. inversion Hn as [|? ? [He1 He2] Hn']; subst.
    assert (Hs : (0 <= zsum (map e_count E))%Z).
    { apply zsum_nonneg. apply Forall_map. eapply Forall_impl; [|exact Hn']. simpl; intros; tauto. }
    rewrite zslice_app in Hl |- * by assumption.
    rewrite app_length, Nat2Z.inj_add in Hl.
    pose proof (zslice_length_le rows (e_first e) (e_first e + e_count e)) as L1.
    pose proof (zslice_length_le rows (e_first e + e_count e) (e_first e + e_count e + zsum (map e_count E))) as L2.
    unfold np_repeat; simpl. rewrite combine_app by (rewrite repeat_length; lia).
    f_equal.
    + rewrite combine_repeat by lia. reflexivity.
    + apply IH.
      * intros i x y H1 H2. exact (Hc (S i) x y H1 H2).
      * assumption.
      * lia.
      * destruct E as [|e' E']; [exact I|]. apply (Hc 0%nat e e'); reflexivity.
      * lia.
Qed.

Lemma filter_entry_rows : forall rows t e,
  filter (fun p => (fst p =? t)%Z) (entry_rows rows e)
  = if (fst e =? t)%Z then entry_rows rows e else [].
Proof.
  intros rows t e; unfold entry_rows. induction (zslice _ _ _) as [|x l IH]; simpl.
  - destruct (_ =? _)%Z; reflexivity.
  - rewrite IH. destruct (_ =? _)%Z; reflexivity.
Qed.

Lemma filter_entries_one : forall rows t E e,
  NoDup (map fst E) -> In e E -> fst e = t ->
  filter (fun p => (fst p =? t)%Z) (flat_map (entry_rows rows) E) = entry_rows rows e.
Proof.
  intros rows t E e HN He Ht. rewrite filter_flat_map.
  rewrite (flat_map_ext_in _ (fun e => if (fst e =? t)%Z then entry_rows rows e else []))
    by (intros; apply filter_entry_rows).
  induction E as [|e0 E IH]; [destruct He|]. simpl in *. inversion HN; subst.
  destruct He as [->|He].
  - rewrite Z.eqb_refl. rewrite flat_map_nil; [apply app_nil_r|].
    intros e' He'. destruct (fst e' =? fst e)%Z eqn:E1; [|reflexivity].
    apply Z.eqb_eq in E1. exfalso; apply H1. rewrite <- E1. now apply in_map.
  - destruct (fst e0 =? fst e)%Z eqn:E1.
    + apply Z.eqb_eq in E1. exfalso; apply H1. rewrite E1. now apply in_map.
    + simpl. now apply IH.
Qed.
Lemma filter_entries_none : forall rows t E,
  ~ In t (map fst E) ->
  filter (fun p => (fst p =? t)%Z) (flat_map (entry_rows rows) E) = [].
Proof.
  intros rows t E H. rewrite filter_flat_map. apply flat_map_nil. intros e He.
  rewrite filter_entry_rows. destruct (fst e =? t)%Z eqn:E1; [|reflexivity].
  apply Z.eqb_eq in E1; exfalso; apply H; rewrite <- E1; now apply in_map.
Qed.
Lemma snd_entry_rows : forall rows e,
  map snd (entry_rows rows e) = zslice rows (e_first e) (e_first e + e_count e).
Proof. intros; unfold entry_rows. rewrite map_map. simpl. apply map_id. Qed.
End Rows.
