(** Lemmas on the bytes of arrays. *)
From Verif Require Import Base M_Export S_Export.
Set Implicit Arguments.
Unset Strict Implicit.
Local Open Scope list_scope.

Lemma read_length m b off n : List.length (read m b off n) = n.
Proof. unfold read. now rewrite map_length, seq_length. Qed.

Lemma read_app m b off n k : read m b off (n + k) = read m b off n ++ read m b (off + Z.of_nat n) k.
Proof.
  unfold read. rewrite seq_app, map_app. f_equal.
  rewrite <- (Nat.add_0_r (0 + n)). cbn [Nat.add].
  assert (E : forall s j, List.map (fun i => m b (off + Z.of_nat i)%Z) (seq (n + s) j)
              = List.map (fun i => m b (off + Z.of_nat n + Z.of_nat i)%Z) (seq s j)).
  { intros s j. revert s. induction j as [|j IH]; intros s; cbn [seq List.map]; [reflexivity|].
    f_equal; [f_equal; lia|]. rewrite <- IH. now rewrite Nat.add_succ_r. }
  apply E.
Qed.

Lemma read_ext m m' b off n : (forall i, m b i = m' b i) -> read m b off n = read m' b off n.
Proof. intros H. unfold read. apply map_ext. intros. apply H. Qed.

(** Consecutive elements. *)
Lemma read_elems m b k : forall n off,
  flat_map (fun i => read m b (off + Z.of_nat (i * k)) k) (seq 0 n) = read m b off (n * k).
Proof.
  induction n as [|n IH]; intros off; [reflexivity|].
  rewrite seq_S, flat_map_app. rewrite IH. cbn [flat_map Nat.add]. rewrite app_nil_r.
  replace (S n * k)%nat with (n * k + k)%nat by lia. now rewrite read_app.
Qed.

Lemma indices_length shape : List.length (indices shape) = prod shape.
Proof.
  induction shape as [|n r IH]; [reflexivity|].
  cbn [indices]. unfold prod in *; cbn [fold_right].
  assert (E : forall s, List.length (flat_map (fun i => List.map (cons i) (indices r)) (seq s n)) = n * List.length (indices r)).
  { induction n as [|n IHn]; intros s; [reflexivity|]. cbn [seq flat_map]. rewrite app_length, map_length, IHn. lia. }
  rewrite E, IH. reflexivity.
Qed.

Lemma indices_inside shape idx : In idx (indices shape) <-> inside shape idx.
Proof.
  unfold inside. revert idx. induction shape as [|n r IH]; intros idx; cbn [indices].
  - split; [intros [<-|[]]; constructor|]. intros H; inversion H; subst; now left.
  - rewrite in_flat_map. split.
    + intros (i & Hi & H). apply in_map_iff in H as (t & <- & Ht). apply in_seq in Hi.
      constructor; [lia|]. now apply IH.
    + intros H; inversion H; subst. exists x. split; [apply in_seq; lia|]. apply in_map_iff. eexists; split; [reflexivity|]. now apply IH.
Qed.

Lemma ravel_lt shape idx : inside shape idx -> (ravel shape idx < prod shape)%nat.
Proof.
  unfold inside. intros H. revert idx H. induction shape as [|n r IH]; intros idx H; inversion H; subst; cbn.
  - lia.
  - specialize (IH _ H4). change (fold_right Nat.mul 1 r) with (prod r). nia.
Qed.

Lemma indices_ravel shape : List.map (ravel shape) (indices shape) = seq 0 (prod shape).
Proof.
  induction shape as [|n r IH]; [reflexivity|].
  cbn [indices].
  change (prod (n :: r)) with (n * prod r)%nat.
  assert (E : forall k, List.map (ravel (n :: r)) (flat_map (fun i => List.map (cons i) (indices r)) (seq 0 k)) = seq 0 (k * prod r)).
  { induction k as [|k IHk]; [reflexivity|].
    rewrite seq_S, flat_map_app, map_app, IHk. cbn [flat_map Nat.add]. rewrite app_nil_r, map_map.
    replace (S k * prod r)%nat with (k * prod r + prod r)%nat by lia. rewrite seq_app. f_equal.
    cbn [ravel Nat.add]. rewrite <- (map_map (ravel r) (fun x => (k * prod r + x)%nat)), IH.
    generalize (k * prod r)%nat as o. intros o.
    assert (E : forall j s, List.map (fun x => o + x) (seq s j) = seq (o + s) j).
    { induction j as [|j IHj]; intros s; [reflexivity|]. cbn [seq List.map]. f_equal. rewrite IHj. f_equal. lia. }
    rewrite E. f_equal. lia. }
  apply E.
Qed.

(** ** The elements of the bytes in C order *)
Lemma flat_map_nth {A} (f : nat -> list A) k n i :
  (forall j, List.length (f j) = k) -> (i < n)%nat ->
  firstn k (skipn (i * k) (flat_map f (seq 0 n))) = f i.
Proof.
  intros Hl Hi.
  assert (E : forall n s i, (i < n)%nat -> firstn k (skipn (i * k) (flat_map f (seq s n))) = f (s + i)%nat).
  { clear n i Hi. induction n as [|n IH]; intros s i Hi; [lia|]. cbn [seq flat_map]. destruct i as [|i].
    - cbn [Nat.mul skipn]. rewrite firstn_app, Hl. rewrite firstn_all2 by (rewrite Hl; lia).
      rewrite Nat.sub_diag. cbn [firstn]. rewrite app_nil_r. f_equal; lia.
    - rewrite skipn_app, Hl. rewrite skipn_all2 by (rewrite Hl; lia). cbn [app].
      replace (S i * k - k)%nat with (i * k)%nat by lia. rewrite IH by lia. f_equal; lia. }
  rewrite E by assumption. reflexivity.
Qed.

Section Arr.
Variable isize : string -> nat.
Notation elem := (elem isize).
Notation tobytes := (tobytes isize).

Lemma elem_length m a idx : List.length (elem m a idx) = isize (a_dtype a).
Proof. apply read_length. Qed.

Lemma flat_map_length {A B} (f : A -> list B) k l :
  (forall x, List.length (f x) = k) -> List.length (flat_map f l) = List.length l * k.
Proof. intros H. induction l as [|x r IH]; [reflexivity|]. cbn [flat_map List.length]. rewrite app_length, H, IH. lia. Qed.

Lemma tobytes_length m a : List.length (tobytes m a) = prod (a_shape a) * isize (a_dtype a).
Proof.
  unfold M_Export.tobytes. rewrite flat_map_length with (k := isize (a_dtype a)).
  - now rewrite indices_length.
  - intros; apply elem_length.
Qed.

(** The element at an index, found by its position in C order. *)
Lemma flat_map_indices {A} (f : list nat -> list A) k : (forall i, List.length (f i) = k) ->
  forall shape idx, inside shape idx ->
  firstn k (skipn (ravel shape idx * k) (flat_map f (indices shape))) = f idx.
Proof.
  intros Hl shape idx Hin.
  assert (E : forall (l : list (list nat)) i, (exists d, nth_error l i = Some d) -> forall d, nth_error l i = Some d ->
              firstn k (skipn (i * k) (flat_map f l)) = f d).
  { induction l as [|x l IH]; intros i _ d Hd; [destruct i; discriminate|].
    cbn [flat_map]. destruct i as [|i]; cbn [nth_error] in Hd.
    - injection Hd as ->. cbn [Nat.mul skipn]. rewrite firstn_app, Hl, firstn_all2 by (rewrite Hl; lia).
      rewrite Nat.sub_diag. cbn [firstn]. apply app_nil_r.
    - rewrite skipn_app, Hl. rewrite skipn_all2 by (rewrite Hl; lia). cbn [app].
      replace (S i * k - k)%nat with (i * k)%nat by lia. apply IH; [eauto|assumption]. }
  assert (Hn : nth_error (indices shape) (ravel shape idx) = Some idx).
  { apply indices_inside in Hin as Hin'. apply In_nth_error in Hin' as (j & Hj).
    assert (Hr := map_nth_error (ravel shape) _ _ Hj). rewrite indices_ravel in Hr.
    assert (Hlt : (j < prod shape)%nat).
    { rewrite <- indices_length. apply nth_error_Some. congruence. }
    assert (Hs : nth_error (seq 0 (prod shape)) j = Some (nth j (seq 0 (prod shape)) 0)).
    { apply nth_error_nth'. now rewrite seq_length. }
    rewrite seq_nth in Hs by assumption. rewrite Hs in Hr. injection Hr as Hr. cbn in Hr. now rewrite <- Hr. }
  apply E; eauto.
Qed.

Lemma tobytes_got m a : got_array isize m a (mk_carr (a_dtype a) (a_shape a) (tobytes m a)).
Proof.
  unfold got_array. cbn [c_dtype c_shape c_bytes]. repeat split.
  - apply tobytes_length.
  - intros idx Hin. unfold c_elem. cbn [c_dtype c_shape c_bytes]. unfold M_Export.tobytes.
    apply flat_map_indices; [apply elem_length|assumption].
Qed.

(** ** Contiguous arrays *)
Lemma contig_from_snoc l n s : forall sd,
  contig_from (l ++ [(n, s)]) sd = contig_from l sd && ((n =? 1)%nat || (s =? sd * Z.of_nat (prod (List.map fst l)))%Z).
Proof.
  induction l as [|[n' s'] l IH]; intros sd; cbn [app contig_from List.map fst prod fold_right].
  - change (Z.of_nat 1) with 1%Z. rewrite Z.mul_1_r. destruct (n =? 1)%nat; [reflexivity|]. now rewrite andb_true_r.
  - destruct (Nat.eqb_spec n' 1) as [->|H1].
    + rewrite IH. unfold prod. rewrite Nat.mul_1_l. reflexivity.
    + rewrite IH. rewrite <- andb_assoc. do 3 f_equal. change (fold_right Nat.mul 1 (List.map fst l)) with (prod (List.map fst l)).
      f_equal. lia.
Qed.

Lemma prod_rev l : prod (rev l) = prod l.
Proof.
  induction l as [|n l IH]; [reflexivity|]. cbn [rev].
  assert (E : forall a b, prod (a ++ b) = prod a * prod b).
  { induction a as [|x a IHa]; intros b; unfold prod in *; cbn [app fold_right]; [lia|]. rewrite IHa. lia. }
  rewrite E, IH. unfold prod; cbn [fold_right]. lia.
Qed.

Lemma contig_place shape : forall strides item idx,
  List.length strides = List.length shape ->
  contig_from (rev (combine shape strides)) (Z.of_nat item) = true -> inside shape idx ->
  place idx strides = Z.of_nat (ravel shape idx * item).
Proof.
  induction shape as [|n r IH]; intros strides item idx Hl Hc Hin.
  - destruct strides; [|discriminate]. inversion Hin; subst. reflexivity.
  - destruct strides as [|s ss]; [discriminate|]. cbn [List.length] in Hl. injection Hl as Hl.
    cbn [combine rev] in Hc. rewrite contig_from_snoc in Hc. apply andb_true_iff in Hc as [Hc Hs].
    unfold inside in Hin; inversion Hin as [|i ? is ? Hi His]; subst. cbn [place ravel].
    rewrite (IH ss item is Hl Hc His).
    assert (Ep : prod (List.map fst (rev (combine r ss))) = prod r).
    { rewrite map_rev, prod_rev. f_equal. clear -Hl. revert ss Hl. induction r as [|x r IHr]; intros [|y ss] Hl; try discriminate; [reflexivity|].
      cbn. f_equal. apply IHr. now injection Hl. }
    rewrite Ep in Hs. apply orb_true_iff in Hs as [Hs | Hs].
    + apply Nat.eqb_eq in Hs. subst. assert (i = 0)%nat by lia. subst. lia.
    + apply Z.eqb_eq in Hs. subst. lia.
Qed.

Lemma flat_map_ext_in {A B} (f g : A -> list B) l : (forall x, In x l -> f x = g x) -> flat_map f l = flat_map g l.
Proof. intros H. induction l as [|x l IH]; [reflexivity|]. cbn [flat_map]. rewrite H by now left. f_equal. apply IH. intros; apply H; now right. Qed.

Lemma flat_map_map {A B C} (f : B -> list C) (g : A -> B) l : flat_map f (List.map g l) = flat_map (fun x => f (g x)) l.
Proof. induction l as [|x l IH]; [reflexivity|]. cbn. now rewrite IH. Qed.

Lemma contiguous_bytes m a : List.length (a_strides a) = List.length (a_shape a) ->
  c_contiguous isize a = true ->
  read m (a_buf a) (a_off a) (prod (a_shape a) * isize (a_dtype a)) = tobytes m a.
Proof.
  intros Hl Hc. unfold c_contiguous in Hc. apply orb_true_iff in Hc as [Hz | Hc].
  - assert (E : prod (a_shape a) = 0%nat).
    { apply existsb_exists in Hz as (x & Hx & E). apply Nat.eqb_eq in E. subst x.
      clear -Hx. induction (a_shape a) as [|y r IH]; [contradiction|]. unfold prod in *; cbn. destruct Hx as [-> | Hx]; [reflexivity|].
      rewrite IH by assumption. lia. }
    rewrite E. cbn. symmetry. apply length_zero_iff_nil. rewrite tobytes_length, E. reflexivity.
  - rewrite <- read_elems, <- indices_ravel, flat_map_map. unfold M_Export.tobytes.
    apply flat_map_ext_in. intros idx Hin. apply indices_inside in Hin. unfold M_Export.elem.
    rewrite (contig_place Hl Hc Hin). reflexivity.
Qed.

Lemma copy_bytes h a : let '(a', h') := ascontiguousarray isize h a in
  read (h_mem h') (a_buf a') (a_off a') (prod (a_shape a') * isize (a_dtype a')) = tobytes (h_mem h) a.
Proof.
  unfold ascontiguousarray. cbn [a_buf a_off a_dtype a_shape h_mem]. rewrite <- (tobytes_length (h_mem h) a).
  generalize (tobytes (h_mem h) a) as l. intros l. unfold read. rewrite Nat.eqb_refl.
  transitivity (List.map (fun i => nth i l 0%Z) (seq 0 (List.length l))).
  - apply map_ext. intros i. rewrite Z.add_0_l, Nat2Z.id. reflexivity.
  - induction l as [|x l IH]; [reflexivity|]. cbn [List.length seq List.map nth]. f_equal.
    rewrite <- seq_shift, map_map. exact IH.
Qed.
Lemma contig_strides shape item : forall rest sd, sd = Z.of_nat item -> contig_from (rev (combine shape (c_strides shape item)) ++ rest) sd = contig_from rest (Z.of_nat (prod shape * item)).
Proof.
  induction shape as [|n shape IH]; intros rest sd ->; cbn [c_strides combine rev app].
  - f_equal. unfold prod. cbn. lia.
  - rewrite <- app_assoc. rewrite IH by reflexivity. cbn [app contig_from]. destruct (Nat.eqb_spec n 1) as [->|Hn].
    + f_equal. unfold prod. cbn [fold_right]. lia.
    + rewrite Z.eqb_refl. cbn [andb]. f_equal. unfold prod. cbn [fold_right]. lia.
Qed.
Lemma strides_length shape item : List.length (c_strides shape item) = List.length shape.
Proof. induction shape as [|n shape IH]; [reflexivity|]. cbn. now rewrite IH. Qed.
Lemma copy_contiguous h a : let '(a', h') := ascontiguousarray isize h a in
  c_contiguous isize a' = true /\ List.length (a_strides a') = List.length (a_shape a') /\ tobytes (h_mem h') a' = tobytes (h_mem h) a.
Proof.
  pose proof (copy_bytes h a) as B. destruct (ascontiguousarray isize h a) as [a' h'] eqn:E. unfold ascontiguousarray in E. injection E as Ea Eh.
  assert (C : c_contiguous isize a' = true /\ List.length (a_strides a') = List.length (a_shape a')).
  { rewrite <- Ea. unfold c_contiguous. cbn [a_shape a_strides a_dtype]. split; [|apply strides_length]. apply orb_true_iff. right.
    rewrite <- (app_nil_r (rev _)). now rewrite contig_strides. }
  destruct C as [C1 C2]. split; [exact C1|]. split; [exact C2|]. rewrite <- B. symmetry. now apply contiguous_bytes.
Qed.
End Arr.
