(** Lemmas about the base layer. *)
From Verif Require Import Base.
Set Implicit Arguments.

(** ** res *)
Lemma bind_ok : forall A B (x : res A) (f : A -> res B) b,
  bind x f = Ok b -> exists a, x = Ok a /\ f a = Ok b.
Proof. intros A B [a|e] f b H; simpl in H; [eauto|discriminate]. Qed.

Lemma mapM_ok_iff : forall A B (f : A -> res B) l ys,
  mapM f l = Ok ys <-> Forall2 (fun x y => f x = Ok y) l ys.
Proof.
  intros A B f; induction l as [|x l IH]; intros ys; simpl; split; intros H.
  - injection H as <-; constructor.
  - inversion H; reflexivity.
  - apply bind_ok in H as (y & Hy & H). apply bind_ok in H as (zs & Hz & H).
    injection H as <-. constructor; [assumption|]. now apply IH.
  - inversion H; subst. rewrite H2; simpl. apply IH in H4. rewrite H4. reflexivity.
Qed.

Lemma mapM_total : forall A B (f : A -> res B) l,
  (forall x, In x l -> exists y, f x = Ok y) -> exists ys, mapM f l = Ok ys.
Proof.
  intros A B f; induction l as [|x l IH]; intros H; simpl; [eauto|].
  destruct (H x (or_introl eq_refl)) as [y Hy]. rewrite Hy; simpl.
  destruct IH as [ys Hys]; [intros z Hz; apply H; now right|]. rewrite Hys; simpl; eauto.
Qed.

Lemma mapM_ext : forall A B (f g : A -> res B) l,
  (forall x, In x l -> f x = g x) -> mapM f l = mapM g l.
Proof.
  intros A B f g; induction l as [|x l IH]; intros H; simpl; [reflexivity|].
  rewrite (H x (or_introl eq_refl)). rewrite IH; [reflexivity|]. intros; apply H; now right.
Qed.

Lemma mapM_length : forall A B (f : A -> res B) l ys, mapM f l = Ok ys -> List.length ys = List.length l.
Proof.
  intros A B f l ys H. apply mapM_ok_iff in H. induction H; simpl; congruence.
Qed.

(** ** membership tests *)
Lemma str_in_iff : forall s l, str_in s l = true <-> In s l.
Proof.
  intros s l; unfold str_in; rewrite existsb_exists; split.
  - intros (x & Hx & E). apply String.eqb_eq in E; now subst.
  - intros H; exists s; split; [assumption|apply String.eqb_refl].
Qed.
Lemma str_in_false : forall s l, str_in s l = false <-> ~ In s l.
Proof. intros s l; rewrite <- str_in_iff; destruct (str_in s l); split; congruence. Qed.
Lemma z_in_iff : forall z l, z_in z l = true <-> In z l.
Proof.
  intros s l; unfold z_in; rewrite existsb_exists; split.
  - intros (x & Hx & E). apply Z.eqb_eq in E; now subst.
  - intros H; exists s; split; [assumption|apply Z.eqb_refl].
Qed.
Lemma z_in_false : forall s l, z_in s l = false <-> ~ In s l.
Proof. intros s l; rewrite <- z_in_iff; destruct (z_in s l); split; congruence. Qed.

(** ** sets *)
Lemma set_add_In : forall x s l, In x (set_add s l) <-> x = s \/ In x l.
Proof.
  intros x s l; unfold set_add. destruct (str_in s l) eqn:E.
  - apply str_in_iff in E. split; [auto|intros [->|]; auto].
  - rewrite in_app_iff; simpl; intuition.
Qed.
Lemma set_add_NoDup : forall s l, NoDup l -> NoDup (set_add s l).
Proof.
  intros s l H; unfold set_add. destruct (str_in s l) eqn:E; [assumption|].
  apply str_in_false in E.
  apply NoDup_rev in H. rewrite <- (rev_involutive (l ++ [s])). apply NoDup_rev.
  rewrite rev_app_distr; simpl. constructor; [now rewrite <- in_rev|assumption].
Qed.
Lemma set_union_In : forall x b a, In x (set_union a b) <-> In x a \/ In x b.
Proof.
  intros x; unfold set_union; induction b as [|y b IH]; intros a; simpl; [tauto|].
  rewrite IH, set_add_In. intuition (subst; auto).
Qed.
Lemma set_union_NoDup : forall b a, NoDup a -> NoDup (set_union a b).
Proof.
  unfold set_union; induction b as [|y b IH]; intros a H; simpl; [assumption|].
  apply IH. now apply set_add_NoDup.
Qed.
Lemma set_inter_In : forall x a b, In x (set_inter a b) <-> In x a /\ In x b.
Proof. intros; unfold set_inter; rewrite filter_In, str_in_iff; tauto. Qed.
Lemma set_minus_In : forall x a b, In x (set_minus a b) <-> In x a /\ ~ In x b.
Proof.
  intros; unfold set_minus; rewrite filter_In, negb_true_iff, str_in_false; tauto.
Qed.

Lemma fold_set_union_In : forall A (g : A -> list string) l acc x,
  In x (fold_left (fun acc f => set_union acc (g f)) l acc) <->
  In x acc \/ exists f, In f l /\ In x (g f).
Proof.
  intros A g; induction l as [|y l IH]; intros acc x; simpl.
  - split; [auto|intros [H|(f & [] & _)]; exact H].
  - rewrite IH, set_union_In. split.
    + intros [[H|H]|(f & Hf & H)]; [auto|right; exists y; auto|right; exists f; auto].
    + intros [H|(f & [->|Hf] & H)]; [auto|auto|right; exists f; auto].
Qed.

(** ** dictionaries *)
Lemma dict_get_In : forall B k (v : B) d, dict_get k d = Some v -> In (k, v) d.
Proof.
  intros B k v; induction d as [|[k' v'] d IH]; simpl; [discriminate|].
  destruct (String.eqb k k') eqn:E.
  - intros H; injection H as ->. apply String.eqb_eq in E; subst; now left.
  - intros H; right; auto.
Qed.
Lemma dict_get_keys : forall B k (d : list (string * B)),
  (exists v, dict_get k d = Some v) <-> In k (dict_keys d).
Proof.
  intros B k; induction d as [|[k' v'] d IH]; simpl.
  - split; [intros [v H]; discriminate|intros []].
  - destruct (String.eqb k k') eqn:E.
    + apply String.eqb_eq in E; subst; split; eauto.
    + apply String.eqb_neq in E. rewrite IH. split; [auto|intros [->|]; [congruence|auto]].
Qed.
Lemma dict_get_none : forall B k (d : list (string * B)),
  dict_get k d = None <-> ~ In k (dict_keys d).
Proof.
  intros B k d. rewrite <- dict_get_keys. destruct (dict_get k d); split; try congruence.
  - intros H; exfalso; apply H; eauto.
  - intros _ [v H]; discriminate.
Qed.
Lemma dict_get_set : forall B k k' (v : B) d,
  dict_get k (dict_set k' v d) = if String.eqb k k' then Some v else dict_get k d.
Proof.
  intros B k k' v; induction d as [|[a b] d IH]; simpl.
  - destruct (String.eqb k k'); reflexivity.
  - destruct (String.eqb k' a) eqn:E; simpl.
    + apply String.eqb_eq in E; subst. destruct (String.eqb k a); reflexivity.
    + destruct (String.eqb k a) eqn:E2.
      * apply String.eqb_eq in E2; subst. rewrite String.eqb_sym in E. rewrite E. reflexivity.
      * apply IH.
Qed.
Lemma dict_keys_set : forall B k k' (v : B) d,
  In k (dict_keys (dict_set k' v d)) <-> k = k' \/ In k (dict_keys d).
Proof.
  intros. rewrite <- !dict_get_keys. rewrite dict_get_set.
  destruct (String.eqb k k') eqn:E.
  - apply String.eqb_eq in E; subst. split; eauto.
  - apply String.eqb_neq in E. intuition.
Qed.

(** ** sorting *)
Section SortLemmas.
  Context {A : Type} (leb : A -> A -> bool).
  Hypothesis leb_total : forall a b, leb a b = true \/ leb b a = true.
  Lemma insert_perm : forall x l, Permutation (x :: l) (insert_sorted leb x l).
  Proof.
    intros x; induction l as [|y l IH]; simpl; [reflexivity|].
    destruct (leb x y); [reflexivity|].
    rewrite perm_swap. now constructor.
  Qed.
  Lemma isort_perm : forall l, Permutation l (isort leb l).
  Proof.
    induction l as [|x l IH]; simpl; [reflexivity|].
    rewrite <- insert_perm. now constructor.
  Qed.
  Lemma insert_sorted_Sorted : forall x l,
    Sorted (fun a b => leb a b = true) l -> Sorted (fun a b => leb a b = true) (insert_sorted leb x l).
  Proof.
    intros x; induction l as [|y l IH]; intros H; simpl; [repeat constructor|].
    destruct (leb x y) eqn:E; [constructor; [assumption|now constructor]|].
    inversion H; subst. constructor; [now apply IH|].
    destruct (leb_total x y) as [T|T]; [congruence|].
    destruct l as [|z l]; simpl; [now constructor|].
    destruct (leb x z); constructor; [assumption|now inversion H3].
  Qed.
  Lemma isort_Sorted : forall l, Sorted (fun a b => leb a b = true) (isort leb l).
  Proof. induction l as [|x l IH]; simpl; [constructor|]. now apply insert_sorted_Sorted. Qed.
End SortLemmas.

Lemma sort_key_perm : forall A (key : A -> Z) l, Permutation l (sort_key key l).
Proof. intros; apply isort_perm. Qed.
Lemma sort_key_sorted : forall A (key : A -> Z) l,
  StronglySorted (fun a b => key a <= key b)%Z (sort_key key l).
Proof.
  intros A key l. apply Sorted_StronglySorted; [intros a b c; lia|].
  unfold sort_key.
  assert (H : Sorted (fun a b => (key a <=? key b)%Z = true) (isort (fun a b => (key a <=? key b)%Z) l))
    by (apply isort_Sorted; intros; lia).
  induction H as [|a m Hs IH Hr]; constructor; [assumption|].
  destruct Hr; constructor; lia.
Qed.
Lemma zsort_In : forall x l, In x (zsort l) <-> In x l.
Proof.
  intros; unfold zsort; split; intros H.
  - eapply Permutation_in; [symmetry; apply sort_key_perm|exact H].
  - eapply Permutation_in; [apply sort_key_perm|exact H].
Qed.
Lemma zdedup_In : forall x l, In x (zdedup l) <-> In x l.
Proof.
  intros x; induction l as [|y l IH]; simpl; [tauto|].
  rewrite filter_In, IH, negb_true_iff, Z.eqb_neq.
  destruct (Z.eq_dec x y); intuition congruence.
Qed.
Lemma NoDup_filter : forall A (f : A -> bool) l, NoDup l -> NoDup (filter f l).
Proof.
  intros A f; induction l as [|y l IH]; simpl; intros H; [constructor|].
  inversion H; subst. destruct (f y); [constructor; [rewrite filter_In; tauto|auto]|auto].
Qed.
Lemma zdedup_NoDup : forall l, NoDup (zdedup l).
Proof.
  induction l as [|y l IH]; simpl; [constructor|].
  constructor; [|now apply NoDup_filter].
  rewrite filter_In, negb_true_iff, Z.eqb_neq. intuition.
Qed.
Lemma zsort_set_In : forall x l, In x (zsort_set l) <-> In x l.
Proof. intros; unfold zsort_set; now rewrite zsort_In, zdedup_In. Qed.
Lemma sorted_nodup_lt : forall l, StronglySorted Z.le l -> NoDup l -> StronglySorted Z.lt l.
Proof.
  induction l as [|x l IH]; intros H N; [constructor|].
  inversion H; subst; inversion N; subst. constructor; [auto|].
  rewrite Forall_forall in *. intros y Hy. specialize (H3 _ Hy).
  assert (x <> y) by (intros ->; contradiction). lia.
Qed.
Lemma zsort_set_sorted : forall l, StronglySorted Z.lt (zsort_set l).
Proof.
  intros l. apply sorted_nodup_lt.
  - apply (sort_key_sorted (fun z => z)).
  - unfold zsort_set. eapply Permutation_NoDup; [apply sort_key_perm|apply zdedup_NoDup].
Qed.

(** Two strictly sorted lists with the same elements are equal. *)
Lemma sorted_lt_ext : forall l1 l2,
  StronglySorted Z.lt l1 -> StronglySorted Z.lt l2 -> (forall x, In x l1 <-> In x l2) -> l1 = l2.
Proof.
  induction l1 as [|x l1 IH]; intros [|y l2] H1 H2 E.
  - reflexivity.
  - exfalso. apply (E y). now left.
  - exfalso. apply (E x). now left.
  - inversion H1; subst; inversion H2; subst.
    rewrite Forall_forall in *.
    assert (x = y).
    { destruct (proj1 (E x) (or_introl eq_refl)) as [|Hx]; [congruence|].
      destruct (proj2 (E y) (or_introl eq_refl)) as [|Hy]; [congruence|].
      specialize (H4 _ Hy); specialize (H6 _ Hx); lia. }
    subst y. f_equal. apply IH; [assumption|assumption|].
    intros z; split; intros Hz.
    + destruct (proj1 (E z) (or_intror Hz)) as [->|]; [|assumption].
      specialize (H4 _ Hz); lia.
    + destruct (proj2 (E z) (or_intror Hz)) as [->|]; [|assumption].
      specialize (H6 _ Hz); lia.
Qed.

Lemma StronglySorted_NoDup_lt : forall l, StronglySorted Z.lt l -> NoDup l.
Proof.
  induction l as [|x l IH]; intros H; constructor; inversion H; subst; auto.
  rewrite Forall_forall in H3. intros Hx; specialize (H3 _ Hx); lia.
Qed.

(** ** numpy *)
Lemma zsum_app : forall a b, zsum (a ++ b) = (zsum a + zsum b)%Z.
Proof. induction a as [|x a IH]; intros b; simpl; [lia|]. rewrite IH; lia. Qed.
Lemma zsum_nonneg : forall l, Forall (fun c => 0 <= c)%Z l -> (0 <= zsum l)%Z.
Proof. induction 1; simpl; lia. Qed.

Lemma nonzero_from_spec : forall l i p,
  In p (nonzero_from i l) <-> (i <= p)%nat /\ nth_error l (p - i) = Some true.
Proof.
  induction l as [|b l IH]; intros i p; simpl.
  - split; [intros []|intros [_ H]]. destruct (p - i)%nat; discriminate.
  - assert (Hcase : (i <= p)%nat /\ nth_error (b :: l) (p - i) = Some true <->
                    (p = i /\ b = true) \/ ((S i <= p)%nat /\ nth_error l (p - S i) = Some true)).
    { split.
      - intros [Hle H]. destruct (Nat.eq_dec p i) as [->|Hne].
        + left. rewrite Nat.sub_diag in H. simpl in H. split; congruence.
        + right. split; [lia|]. replace (p - i)%nat with (S (p - S i)) in H by lia. exact H.
      - intros [[-> ->]|[Hle H]].
        + rewrite Nat.sub_diag. split; [lia|reflexivity].
        + split; [lia|]. replace (p - i)%nat with (S (p - S i)) by lia. exact H. }
    rewrite Hcase. destruct b; simpl; rewrite IH; intuition congruence.
Qed.
Lemma nonzero_spec : forall l p, In p (nonzero l) <-> nth_error l p = Some true.
Proof.
  intros; unfold nonzero; rewrite nonzero_from_spec. rewrite Nat.sub_0_r. intuition lia.
Qed.
Lemma nonzero_from_hd : forall l i p r, nonzero_from i l = p :: r ->
  forall q, (i <= q)%nat -> (q < p)%nat -> nth_error l (q - i) = Some false.
Proof.
  induction l as [|b l IH]; intros i p r H q Hq Hp; simpl in H; [discriminate|].
  destruct b.
  - injection H as <- _. lia.
  - destruct (Nat.eq_dec q i) as [->|Hne].
    + now rewrite Nat.sub_diag.
    + replace (q - i)%nat with (S (q - S i)) by lia. simpl. eapply IH; eauto; lia.
Qed.

(** ** slicing *)
Lemma nth_error_Some_lt : forall A (l : list A) n x, nth_error l n = Some x -> (n < List.length l)%nat.
Proof. intros A l n x H. apply nth_error_Some. congruence. Qed.
Lemma nth_error_ex : forall A (l : list A) n, (n < List.length l)%nat -> exists x, nth_error l n = Some x.
Proof.
  intros A l n H. destruct (nth_error l n) eqn:E; [eauto|].
  apply nth_error_None in E. lia.
Qed.
Lemma nth_error_firstn : forall A n (l : list A) i,
  nth_error (firstn n l) i = if (i <? n)%nat then nth_error l i else None.
Proof.
  intros A; induction n as [|n IH]; intros l i; simpl.
  - destruct i; reflexivity.
  - destruct l as [|x l]; [destruct i; simpl; [reflexivity|]; now destruct (_ <? _)%nat|].
    destruct i as [|i]; simpl; [reflexivity|]. rewrite IH. reflexivity.
Qed.
Lemma nth_error_skipn : forall A n (l : list A) i,
  nth_error (skipn n l) i = nth_error l (n + i).
Proof.
  intros A; induction n as [|n IH]; intros l i; simpl; [reflexivity|].
  destruct l as [|x l]; [destruct i; reflexivity|]. apply IH.
Qed.
Lemma skipn_skipn : forall A n m (l : list A), skipn n (skipn m l) = skipn (m + n) l.
Proof.
  intros A n m; revert n; induction m as [|m IH]; intros n l; simpl; [reflexivity|].
  destruct l; [now rewrite skipn_nil|apply IH].
Qed.
Lemma firstn_add : forall A n m (l : list A), firstn (n + m) l = firstn n l ++ firstn m (skipn n l).
Proof.
  intros A; induction n as [|n IH]; intros m l; simpl; [reflexivity|].
  destruct l as [|x l]; [now rewrite firstn_nil|]. simpl. f_equal. apply IH.
Qed.

(** ** flat_map and filter *)
Lemma filter_flat_map : forall A B (p : B -> bool) (g : A -> list B) l,
  filter p (flat_map g l) = flat_map (fun x => filter p (g x)) l.
Proof.
  intros A B p g; induction l as [|x l IH]; simpl; [reflexivity|].
  rewrite filter_app, IH. reflexivity.
Qed.
Lemma flat_map_ext_in : forall A B (f g : A -> list B) l,
  (forall x, In x l -> f x = g x) -> flat_map f l = flat_map g l.
Proof.
  intros A B f g; induction l as [|x l IH]; intros H; simpl; [reflexivity|].
  rewrite (H x (or_introl eq_refl)), IH; [reflexivity|]. intros; apply H; now right.
Qed.
Lemma flat_map_nil : forall A B (f : A -> list B) l,
  (forall x, In x l -> f x = []) -> flat_map f l = [].
Proof.
  intros A B f; induction l as [|x l IH]; intros H; simpl; [reflexivity|].
  rewrite (H x (or_introl eq_refl)). apply IH. intros; apply H; now right.
Qed.
Lemma flat_map_map : forall A B C (f : B -> list C) (g : A -> B) l,
  flat_map f (map g l) = flat_map (fun x => f (g x)) l.
Proof. intros A B C f g; induction l as [|x l IH]; simpl; [reflexivity|]. now rewrite IH. Qed.
Lemma map_flat_map : forall A B C (f : B -> C) (g : A -> list B) l,
  map f (flat_map g l) = flat_map (fun x => map f (g x)) l.
Proof. intros A B C f g; induction l as [|x l IH]; simpl; [reflexivity|]. now rewrite map_app, IH. Qed.

(** A sum of lists where at most one summand is non-empty does not depend on
    the order of the summands. *)
Lemma flat_map_perm_single : forall A B (g : A -> list B) l l',
  Permutation l l' ->
  ForallOrdPairs (fun x y => g x = [] \/ g y = []) l ->
  flat_map g l = flat_map g l' /\ ForallOrdPairs (fun x y => g x = [] \/ g y = []) l'.
Proof.
  intros A B g l l' P. induction P; intros H.
  - auto.
  - inversion H; subst. destruct (IHP H3) as [E H']. simpl. rewrite E. split; [reflexivity|].
    constructor; [|assumption]. eapply Permutation_Forall; [exact P|assumption].
  - inversion H; subst. inversion H3; subst. inversion H2; subst. simpl. split.
    + destruct H6 as [E|E]; rewrite E; simpl; rewrite ?app_nil_r; reflexivity.
    + constructor; [constructor; [tauto|assumption]|]. constructor; assumption.
  - destruct (IHP1 H) as [E1 H1]. destruct (IHP2 H1) as [E2 H2]. split; [congruence|assumption].
Qed.
