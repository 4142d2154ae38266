(** Lemmas about pulse selections and the positions they give. *)
From Verif Require Import Base PyStr M_Files M_Machinery M_Reader M_Components S_Reader S_Coll S_Series S_Components
  L_Base L_Reader L_SelTrains.
Set Implicit Arguments. Unset Strict Implicit.
Local Open Scope list_scope.

(** ** Positions *)
Lemma pick_app : forall A (l : list A) a b, pick l (a ++ b) = pick l a ++ pick l b.
Proof. intros A l; induction a as [|i a IH]; intros b; simpl; [reflexivity|]. destruct (nth_error _ _); simpl; now rewrite IH. Qed.
Lemma pick_map : forall A B (f : A -> B) l ix, pick (map f l) ix = map f (pick l ix).
Proof.
  intros A B f l; induction ix as [|i ix IH]; simpl; [reflexivity|]. rewrite nth_error_map.
  destruct (nth_error l _); simpl; now rewrite IH.
Qed.
Lemma pick_flat_map : forall A C (l : list A) (g : C -> list Z) (cs : list C), pick l (flat_map g cs) = flat_map (fun c => pick l (g c)) cs.
Proof. intros A C l g; induction cs as [|c cs IH]; simpl; [reflexivity|]. now rewrite pick_app, IH. Qed.
Definition inside {A} (l : list A) (i : Z) : Prop := (0 <= i < Z.of_nat (List.length l))%Z.

Lemma py_index_in : forall A (l : list A) i x, (0 <= i)%Z -> nth_error l (Z.to_nat i) = Some x -> py_index l i = Ok x.
Proof.
  intros A l i x H E. unfold py_index. assert (Z.to_nat i < List.length l)%nat by (apply nth_error_Some; congruence).
  replace (i <? 0)%Z with false by lia. replace (0 <=? i)%Z with true by lia.
  replace (i <? Z.of_nat (List.length l))%Z with true by lia. simpl. now rewrite E.
Qed.
Lemma mapM_py_index : forall A (l : list A) ix, Forall (inside l) ix -> mapM (py_index l) ix = Ok (pick l ix).
Proof.
  intros A l; induction ix as [|i ix IH]; intros H; simpl; [reflexivity|]. inversion H; subst. destruct H2 as [H2 H4].
  destruct (nth_error l (Z.to_nat i)) eqn:E; [|apply nth_error_None in E; lia].
  rewrite (py_index_in H2 E). simpl. now rewrite (IH H3).
Qed.
Lemma mapM_h5_rows : forall A (rows : list A) a b ix, (0 <= a)%Z -> Forall (inside (zslice rows a b)) ix ->
  mapM (fun i => if (0 <=? i)%Z then match nth_error rows (Z.to_nat i) with Some v => Ok v | None => Err EValueError end
                 else Err EValueError) (map (Z.add a) ix) = Ok (pick (zslice rows a b) ix).
Proof.
  intros A rows a b; induction ix as [|i ix IH]; intros Ha H; simpl; [reflexivity|]. inversion H; subst. destruct H2 as [H2 H4].
  replace (0 <=? a + i)%Z with true by lia.
  assert (E : nth_error rows (Z.to_nat (a + i)) = nth_error (zslice rows a b) (Z.to_nat i)).
  { unfold zslice in *. rewrite firstn_length in H4. rewrite nth_error_firstn. replace (Z.to_nat i <? Z.to_nat (b - a))%nat with true by (symmetry; apply Nat.ltb_lt; lia). rewrite nth_error_skipn. f_equal. lia. }
  rewrite E. destruct (nth_error (zslice rows a b) (Z.to_nat i)) eqn:E2; [|apply nth_error_None in E2; lia]. simpl.
  now rewrite (IH Ha H3).
Qed.

Lemma pick_nonzero_from : forall A (f : A -> bool) l pre,
  pick (pre ++ l) (map Z.of_nat (nonzero_from (List.length pre) (map f l))) = filter f l.
Proof.
  intros A f; induction l as [|x l IH]; intros pre; simpl; [reflexivity|].
  assert (E : pick (pre ++ x :: l) (map Z.of_nat (nonzero_from (S (List.length pre)) (map f l))) = filter f l).
  { replace (pre ++ x :: l) with ((pre ++ [x]) ++ l) by (rewrite <- app_assoc; reflexivity).
    rewrite <- (IH (pre ++ [x])). rewrite app_length. simpl. now rewrite Nat.add_1_r. }
  destruct (f x); simpl; [|exact E]. rewrite Nat2Z.id, nth_error_app2, Nat.sub_diag by lia. simpl. now rewrite E.
Qed.
Lemma pick_nonzero : forall A (f : A -> bool) l, pick l (map Z.of_nat (nonzero (map f l))) = filter f l.
Proof. intros A f l. exact (pick_nonzero_from f l []). Qed.
Lemma nonzero_inside : forall A B (f : A -> bool) (l : list A) (l' : list B), List.length l' = List.length l ->
  Forall (inside l') (map Z.of_nat (nonzero (map f l))).
Proof.
  intros A B f l l' L. apply Forall_forall. intros i Hi. apply in_map_iff in Hi as (n & <- & Hn). apply nonzero_spec in Hn.
  assert (n < List.length (map f l))%nat by (apply nth_error_Some; congruence). rewrite map_length in H.
  unfold inside. lia.
Qed.
Lemma increasing_from : forall l, (forall i j x y, (i < j)%nat -> nth_error l i = Some x -> nth_error l j = Some y -> (x < y)%Z) ->
  increasing l = true.
Proof.
  induction l as [|x [|y l] IH]; intros H; [reflexivity|reflexivity|]. change ((x <? y)%Z && increasing (y :: l) = true).
  apply andb_true_iff. split; [apply Z.ltb_lt; apply (H 0%nat 1%nat); auto|]. apply IH. intros i j a b Hij Ha Hb.
  apply (H (S i) (S j)); auto. lia.
Qed.
Lemma increasing_iff : forall l, increasing l = true <-> StronglySorted Z.lt l.
Proof.
  induction l as [|x [|y l] IH].
  - split; constructor.
  - split; repeat constructor.
  - change (increasing (x :: y :: l)) with ((x <? y)%Z && increasing (y :: l)). rewrite andb_true_iff, IH, Z.ltb_lt. split.
    + intros [H1 H2]. constructor; [assumption|]. inversion H2; subst. constructor; [assumption|].
      eapply Forall_impl; [|exact H4]. intros; simpl in *; lia.
    + intros H. inversion H; subst. inversion H3; subst. auto.
Qed.
Lemma nonzero_from_sorted : forall l n, StronglySorted lt (nonzero_from n l).
Proof.
  induction l as [|b l IH]; intros n; simpl; [constructor|]. destruct b; [|apply IH]. constructor; [apply IH|].
  assert (G : forall l m, (n < m)%nat -> Forall (lt n) (nonzero_from m l)).
  { clear. induction l as [|b l IH]; intros m Hm; simpl; [constructor|]. destruct b; [constructor; [assumption|]|]; apply IH; lia. }
  apply G; lia.
Qed.
Lemma SS_map : forall A B (R : A -> A -> Prop) (Q : B -> B -> Prop) (f : A -> B) l,
  (forall x y, R x y -> Q (f x) (f y)) -> StronglySorted R l -> StronglySorted Q (map f l).
Proof.
  intros A B R Q f l H HS. induction HS as [|x l HS IH HF]; simpl; constructor; [assumption|]. apply Forall_map.
  eapply Forall_impl; [|exact HF]. auto.
Qed.
Lemma SS_filter_gen : forall A (R : A -> A -> Prop) p l, StronglySorted R l -> StronglySorted R (filter p l).
Proof.
  intros A R p l H; induction H as [|x l HS IH HF]; simpl; [constructor|]. destruct (p x); [|assumption]. constructor; [assumption|].
  apply Forall_forall. intros y Hy. apply filter_In in Hy as [Hy _]. rewrite Forall_forall in HF. auto.
Qed.
Lemma combine_pick : forall A B (a : list A) (b : list B) ix, Forall (inside a) ix -> Forall (inside b) ix ->
  combine (pick a ix) (pick b ix) = pick (combine a b) ix.
Proof.
  intros A B a b; induction ix as [|i ix IH]; intros Ha Hb; simpl; [reflexivity|]. inversion Ha; inversion Hb; subst.
  destruct (nth_error a (Z.to_nat i)) eqn:Ea; [|apply nth_error_None in Ea; unfold inside in *; lia].
  destruct (nth_error b (Z.to_nat i)) eqn:Eb; [|apply nth_error_None in Eb; unfold inside in *; lia].
  assert (E : nth_error (combine a b) (Z.to_nat i) = Some (a0, b0)).
  { clear -Ea Eb. revert a b Ea Eb. induction (Z.to_nat i) as [|n IHn]; intros [|x a] [|y b] H1 H2; simpl in *; try discriminate.
    - congruence.
    - auto. }
  rewrite E. simpl. f_equal. auto.
Qed.
Lemma pick_length : forall A (l : list A) ix, Forall (inside l) ix -> List.length (pick l ix) = List.length ix.
Proof.
  intros A l; induction ix as [|i ix IH]; intros H; simpl; [reflexivity|]. inversion H; subst.
  destruct (nth_error l (Z.to_nat i)) eqn:E; [|apply nth_error_None in E; unfold inside in *; lia]. simpl. auto.
Qed.
Lemma inside_len : forall A B (a : list A) (b : list B) ix, List.length a = List.length b -> Forall (inside a) ix -> Forall (inside b) ix.
Proof. intros A B a b ix L H. eapply Forall_impl; [|exact H]. unfold inside. intros; lia. Qed.

Lemma pick_range_all : forall A (l : list A) pre n, (n <= List.length l)%nat ->
  pick (pre ++ l) (map (fun k => (Z.of_nat (List.length pre) + Z.of_nat k * 1)%Z) (seq 0 n)) = firstn n l.
Proof.
  intros A; induction l as [|x l IH]; intros pre n Hn.
  - replace n with 0%nat by (simpl in Hn; lia). reflexivity.
  - destruct n as [|n]; [reflexivity|]. simpl. rewrite Z.add_0_r, Nat2Z.id, nth_error_app2, Nat.sub_diag by lia. simpl. f_equal.
    rewrite <- (IH (pre ++ [x]) n) by (simpl in Hn; lia).
    replace (pre ++ x :: l) with ((pre ++ [x]) ++ l) by (rewrite <- app_assoc; reflexivity). f_equal.
    rewrite <- seq_shift, map_map. apply map_ext. intros k. rewrite app_length. simpl. lia.
Qed.
Lemma pick_range : forall A (l : list A) a n, (0 <= a)%Z -> (Z.to_nat a + n <= List.length l)%nat ->
  pick l (map (fun k => (a + Z.of_nat k * 1)%Z) (seq 0 n)) = firstn n (skipn (Z.to_nat a) l).
Proof.
  intros A l a n Ha Hn.
  assert (L : Z.of_nat (List.length (firstn (Z.to_nat a) l)) = a) by (rewrite firstn_length; lia).
  assert (R := @pick_range_all A (skipn (Z.to_nat a) l) (firstn (Z.to_nat a) l) n).
  rewrite firstn_skipn, L in R. apply R. rewrite skipn_length. lia.
Qed.
(** l[a:b] with step 1 and non-negative bounds. *)
Lemma py_slice_zslice : forall A (l : list A) a b, (0 <= a)%Z -> (0 <= b)%Z ->
  py_slice l (mk_slice (Some a) (Some b) (Some 1%Z)) = Ok (zslice l a b).
Proof.
  intros A l a b H H'. unfold py_slice, slice_indices. simpl. unfold slice_clip.
  replace (a <? 0)%Z with false by lia. replace (b <? 0)%Z with false by lia. f_equal.
  set (n := Z.of_nat (List.length l)). unfold py_range, range_len. simpl.
  destruct (Z.ltb_spec (Z.min a n) (Z.min b n)) as [Hab|Hab].
  - rewrite (Z.min_l a n) in * by lia. rewrite <- Z.add_sub_assoc. simpl. rewrite Z.add_0_r, Z.div_1_r.
    rewrite pick_range by lia. unfold zslice.
    destruct (Z.leb_spec b n).
    + rewrite Z.min_l by lia. reflexivity.
    + rewrite !firstn_all2; [reflexivity|rewrite skipn_length; lia|rewrite skipn_length; lia].
  - simpl. unfold zslice. destruct (Z.leb_spec n a).
    + rewrite skipn_all2 by lia. now rewrite firstn_nil.
    + replace (Z.to_nat (b - a)) with 0%nat by lia. reflexivity.
Qed.
Lemma zslice_all : forall A (l : list A), zslice l 0 (Z.of_nat (List.length l)) = l.
Proof. intros A l. unfold zslice. rewrite Z.sub_0_r, Nat2Z.id. simpl. apply firstn_all. Qed.
