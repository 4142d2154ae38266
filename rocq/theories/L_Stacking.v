(** Lemmas about stacking. *)
From Verif Require Import Base PyStr M_Nd M_Stacking S_Stacking L_Base.
Set Implicit Arguments.
Unset Strict Implicit.
Local Open Scope string_scope.
Local Open Scope list_scope.

(** ** Lists with an element inserted *)
Lemma nth_insert_at : forall A k (x d : A) l, (k <= List.length l)%nat -> nth k (insert_at k x l) d = x.
Proof. intros A k x d l H. unfold insert_at. rewrite app_nth2; rewrite firstn_length_le by assumption; [|lia]. now rewrite Nat.sub_diag. Qed.
Lemma remove_insert_at : forall A k (x : A) l, (k <= List.length l)%nat -> remove_at k (insert_at k x l) = l.
Proof.
  intros A. induction k as [|k IH]; intros x l H; [reflexivity|]. destruct l as [|y l]; [simpl in H; lia|].
  simpl in H. unfold remove_at, insert_at in *. simpl. f_equal. apply IH. lia.
Qed.
Lemma insert_at_length : forall A k (x : A) l, List.length (insert_at k x l) = S (List.length l).
Proof. intros. unfold insert_at. rewrite app_length. simpl. rewrite <- plus_n_Sm, <- app_length, firstn_skipn. reflexivity. Qed.
Lemma insert_remove_at : forall A k d (l : list A), (k < List.length l)%nat -> insert_at k (nth k l d) (remove_at k l) = l.
Proof.
  intros A. induction k as [|k IH]; intros d l H; destruct l as [|y l]; simpl in H; try lia; [reflexivity|].
  unfold remove_at, insert_at in *. simpl. f_equal. apply IH. lia.
Qed.
Lemma remove_at_length : forall A k (l : list A), (k < List.length l)%nat -> List.length (remove_at k l) = (List.length l - 1)%nat.
Proof. intros. unfold remove_at. rewrite app_length, firstn_length_le, skipn_length by lia. lia. Qed.
Lemma in_range_length : forall sh idx, in_range sh idx -> List.length idx = List.length sh.
Proof. intros sh idx H. induction H; simpl; congruence. Qed.
Lemma in_range_insert : forall k n sh idx, in_range (insert_at k n sh) idx -> (k <= List.length sh)%nat ->
  exists i r, idx = insert_at k i r /\ (i < n)%nat /\ in_range sh r.
Proof.
  induction k as [|k IH]; intros n sh idx H Hk.
  - unfold insert_at in H. simpl in H. inversion H as [|i ? r ? Hi Hr]; subst. exists i, r. auto.
  - destruct sh as [|m sh]; [simpl in Hk; lia|]. simpl in Hk. unfold insert_at in H. simpl in H. inversion H as [|j ? r ? Hj Hr]; subst.
    destruct (IH n sh r) as (i & r' & -> & H1 & H2); [exact Hr|lia|]. exists i, (j :: r'). split; [reflexivity|]. split; [assumption|]. now constructor.
Qed.
Lemma in_range_insert_intro : forall k n sh i r, (i < n)%nat -> in_range sh r -> in_range (insert_at k n sh) (insert_at k i r).
Proof.
  induction k as [|k IH]; intros n sh i r Hi Hr; [constructor; assumption|].
  destruct Hr as [|j m r sh Hj Hr]; unfold insert_at; simpl.
  - constructor; [assumption|constructor].
  - constructor; [assumption|]. apply (IH n sh i r); assumption.
Qed.

(** ** Integer-keyed dictionaries *)
Section Z.
Context {V : Type}.
Notation nd := (nd V).
Lemma zd_get_in : forall k (v : nd) d, zd_get k d = Some v -> In (k, v) d.
Proof.
  intros k v. induction d as [|[k' v'] d IH]; simpl; [discriminate|]. destruct (Z.eqb_spec k k') as [->|]; [intros E; injection E as ->; now left|auto].
Qed.
Lemma zd_get_none : forall k (d : list (Z * nd)), zd_get k d = None <-> ~ In k (map fst d).
Proof.
  intros k. induction d as [|[k' v'] d IH]; simpl; [tauto|]. destruct (Z.eqb_spec k k') as [->|Hne]; [|rewrite IH; intuition congruence].
  split; [discriminate|]. intros H. exfalso. apply H. now left.
Qed.
Lemma zd_get_set : forall k k' (v : nd) d, zd_get k (zd_set k' v d) = if (k =? k')%Z then Some v else zd_get k d.
Proof.
  intros k k' v. induction d as [|[a b] d IH]; simpl; [reflexivity|]. destruct (Z.eqb_spec k' a) as [->|Hne]; simpl.
  - destruct (Z.eqb_spec k a); reflexivity.
  - rewrite IH. destruct (Z.eqb_spec k a) as [->|]; [|reflexivity]. destruct (Z.eqb_spec a k'); [congruence|reflexivity].
Qed.
Lemma zd_set_in : forall k k' (v v' : nd) d, In (k, v) (zd_set k' v' d) -> (k = k' /\ v = v') \/ In (k, v) d.
Proof.
  intros k k' v v'. induction d as [|[a b] d IH]; simpl; intros H.
  - destruct H as [E|[]]. injection E as <- <-. auto.
  - destruct (Z.eqb_spec k' a) as [->|Hne]; simpl in H; destruct H as [E|H]; try (injection E as <- <-); auto. destruct (IH H); auto.
Qed.
Lemma zd_keys_set : forall k k' (v : nd) d, In k (map fst (zd_set k' v d)) <-> k = k' \/ In k (map fst d).
Proof.
  intros k k' v d. destruct (Z.eq_dec k k') as [->|Hne].
  - split; [auto|]. intros _. destruct (in_dec Z.eq_dec k' (map fst (zd_set k' v d))) as [H|H]; [assumption|]. apply zd_get_none in H.
    rewrite zd_get_set, Z.eqb_refl in H. discriminate.
  - split.
    + intros H. right. destruct (in_dec Z.eq_dec k (map fst d)) as [K|K]; [assumption|]. exfalso. apply zd_get_none in K.
      assert (X : zd_get k (zd_set k' v d) = None) by (rewrite zd_get_set; destruct (Z.eqb_spec k k'); congruence). apply zd_get_none in X. contradiction.
    + intros [->|H]; [contradiction|]. destruct (in_dec Z.eq_dec k (map fst (zd_set k' v d))) as [K|K]; [assumption|]. exfalso.
      apply zd_get_none in K. rewrite zd_get_set in K. destruct (Z.eqb_spec k k'); [contradiction|]. apply zd_get_none in K. contradiction.
Qed.
Lemma zd_set_nodup : forall (d : list (Z * nd)) k v, NoDup (map fst d) -> NoDup (map fst (zd_set k v d)).
Proof.
  induction d as [|[x y] d IH]; intros k v H; simpl; [constructor; [intros []|constructor]|].
  inversion H as [|? ? H1 H2]; subst. destruct (Z.eqb_spec k x) as [->|Hne]; simpl; constructor; auto.
  rewrite zd_keys_set. intros [->|K]; [congruence|contradiction].
Qed.
Lemma zd_in_get : forall (d : list (Z * nd)) k v, NoDup (map fst d) -> In (k, v) d -> zd_get k d = Some v.
Proof.
  induction d as [|[x y] d IH]; intros k v H Hi; [destruct Hi|]. inversion H as [|? ? H1 H2]; subst. simpl.
  destruct Hi as [E|Hi]; [injection E as -> ->; now rewrite Z.eqb_refl|].
  destruct (Z.eqb_spec k x) as [->|_]; [|auto]. exfalso. apply H1. apply (in_map fst) in Hi. exact Hi.
Qed.

(** ** The stacked array *)
Lemma py_index_seq : forall n z, (0 <= z < Z.of_nat n)%Z -> py_index (seq 0 n) z = Ok (Z.to_nat z).
Proof.
  intros n z H. unfold py_index. rewrite seq_length. destruct (Z.ltb_spec z 0); [lia|].
  destruct (Z.leb_spec 0 z); [|lia]. destruct (Z.ltb_spec z (Z.of_nat n)); [|lia]. simpl.
  rewrite nth_error_nth' with (d := 0%nat) by (rewrite seq_length; lia). rewrite seq_nth by lia. reflexivity.
Qed.
Lemma nat_list_eqb_spec : forall a b, nat_list_eqb a b = true <-> a = b.
Proof. intros a b. unfold nat_list_eqb. destruct (list_eq_dec Nat.eq_dec a b); split; congruence. Qed.
Lemma set_all : forall data (arr : nd) n sh, nd_shape arr = n :: sh -> NoDup (map fst data) ->
  (forall m a, In (m, a) data -> (0 <= m < Z.of_nat n)%Z /\ nd_shape a = sh) ->
  exists arr', foldM (fun a m => nd_set0 a (fst m) (snd m)) arr data = Ok arr' /\ nd_shape arr' = n :: sh /\ nd_dtype arr' = nd_dtype arr /\
    forall i r, nd_at arr' (i :: r) = match zd_get (Z.of_nat i) data with Some a => nd_at a r | None => nd_at arr (i :: r) end.
Proof.
  induction data as [|[k a] data IH]; intros arr n sh Hs Hd Ha; simpl.
  - exists arr. auto.
  - inversion Hd as [|? ? H1 H2]; subst. destruct (Ha k a) as [Hk Hsa]; [now left|].
    unfold nd_set0 at 1. cbn [fst snd]. rewrite Hs, (py_index_seq Hk). simpl.
    destruct (nat_list_eqb (nd_shape a) sh) eqn:E; [|exfalso; apply (proj2 (nat_list_eqb_spec _ _)) in Hsa; congruence]. simpl.
    destruct (IH (mk_nd (nd_dtype arr) (n :: sh) (fun idx => match idx with
       | i :: r => if (i =? Z.to_nat k)%nat then nd_at a r else nd_at arr idx | [] => nd_at arr idx end)) n sh eq_refl H2) as (arr' & F & S1 & S2 & S3).
    { intros m b Hb. apply Ha. now right. }
    exists arr'. split; [exact F|]. split; [assumption|]. split; [assumption|]. intros i r. rewrite S3. simpl.
    destruct (Z.eqb_spec (Z.of_nat i) k) as [<-|Hne].
    + apply zd_get_none in H1. rewrite H1. rewrite Nat2Z.id, Nat.eqb_refl. reflexivity.
    + destruct (zd_get (Z.of_nat i) data); [reflexivity|]. destruct (Nat.eqb_spec i (Z.to_nat k)) as [->|_]; [lia|reflexivity].
Qed.
Definition module_at (cast : string -> V -> V) (data : list (Z * nd)) (dt : string) (fill : V) (m : nat) (idx : list nat) : V :=
  match zd_get (Z.of_nat m) data with Some a => nd_at a idx | None => cast dt fill end.
Lemma asarray_ok : forall cast (v : sview) k, NoDup (map fst (sv_data v)) ->
  (forall m a, In (m, a) (sv_data v) -> (0 <= m < sv_n v)%Z /\ nd_shape a = sv_mod_shape v) ->
  norm_axis (S (List.length (sv_mod_shape v))) (sv_axis v) = Ok k ->
  exists r, asarray cast v = Ok r /\ nd_shape r = insert_at k (Z.to_nat (sv_n v)) (sv_mod_shape v) /\ nd_dtype r = sv_dtype v /\
    forall m idx, (k <= List.length idx)%nat -> nd_at r (insert_at k m idx) = module_at cast (sv_data v) (sv_dtype v) (sv_fill v) m idx.
Proof.
  intros cast v k Hd Ha Hk. unfold asarray.
  destruct (@set_all (sv_data v) (nd_full cast (Z.to_nat (sv_n v) :: sv_mod_shape v) (sv_fill v) (sv_dtype v)) (Z.to_nat (sv_n v)) (sv_mod_shape v))
    as (arr' & F & S1 & S2 & S3); [reflexivity|assumption| |].
  { intros m a Hm. destruct (Ha m a Hm) as [H1 H2]. split; [lia|assumption]. }
  rewrite F. cbn [bind]. unfold moveaxis0, nd_ndim. rewrite S1. cbn [List.length]. rewrite Hk. cbn [bind].
  eexists. split; [reflexivity|]. cbn [nd_shape nd_dtype nd_at]. split; [reflexivity|]. split; [exact S2|]. intros m idx Hidx.
  rewrite nth_insert_at, remove_insert_at by assumption. rewrite S3. reflexivity.
Qed.
Lemma norm_axis_le : forall n a k, norm_axis (S n) a = Ok k -> (k <= n)%nat.
Proof.
  intros n a k H. unfold norm_axis in H. set (x := if (a <? 0)%Z then (a + Z.of_nat (S n))%Z else a) in *.
  destruct (Z.leb_spec 0 x); [|discriminate]. destruct (Z.ltb_spec x (Z.of_nat (S n))); [|discriminate]. simpl in H. injection H as <-. lia.
Qed.
End Z.

(** ** Numbers in names *)
Lemma int_from_decimal : forall s acc, int_from acc s = (acc * 10 ^ Z.of_nat (String.length s) + decimal s)%Z.
Proof.
  induction s as [|c s IH]; intros acc; cbn [int_from decimal String.length].
  - change (10 ^ Z.of_nat 0)%Z with 1%Z. lia.
  - rewrite IH, Nat2Z.inj_succ, Z.pow_succ_r by lia. ring.
Qed.
Lemma int_of_decimal : forall s, int_of s = decimal s.
Proof. intros s. unfold int_of. rewrite int_from_decimal. ring. Qed.
Lemma take_digits_spec : forall s d t, take_digits s = (d, t) -> s = (d ++ t)%string /\ all_digits d /\ no_digit_first t.
Proof.
  induction s as [|c s IH]; intros d t H; simpl in H.
  - injection H as <- <-. repeat split.
  - destruct (is_digit c) eqn:E.
    + destruct (take_digits s) as [d' t'] eqn:Et. injection H as <- <-. destruct (IH _ _ eq_refl) as (-> & H2 & H3). simpl. auto.
    + injection H as <- <-. simpl. auto.
Qed.
Lemma take_digits_app : forall d t, all_digits d -> no_digit_first t -> take_digits (d ++ t)%string = (d, t).
Proof.
  induction d as [|c d IH]; intros t H1 H2; cbn [append].
  - destruct t as [|c t]; [reflexivity|]. simpl in H2. simpl. now rewrite H2.
  - destruct H1 as [Hc Hd]. simpl. rewrite Hc, IH by assumption. reflexivity.
Qed.
Lemma strip_prefix_spec : forall p s r, strip_prefix p s = Some r <-> s = (p ++ r)%string.
Proof.
  induction p as [|c p IH]; intros s r; simpl.
  - split; congruence.
  - destruct s as [|c' s]; [split; discriminate|]. destruct (Ascii.eqb_spec c c') as [->|Hne].
    + rewrite IH. split; congruence.
    + split; [discriminate|]. intros E. injection E as E1 E2. congruence.
Qed.
Lemma starts_with_spec : forall p s, starts_with p s = true <-> exists r, s = (p ++ r)%string.
Proof.
  induction p as [|c p IH]; intros s; simpl; [split; eauto|]. destruct s as [|c' s]; [split; [discriminate|intros (r & E); discriminate]|].
  rewrite andb_true_iff, IH. split.
  - intros [E (r & ->)]. apply Ascii.eqb_eq in E. subst. eauto.
  - intros (r & E). injection E as -> ->. split; [apply Ascii.eqb_refl|eauto].
Qed.
Lemma match_module_spec : forall s n, match_module s = Some n <->
  exists ds b, s = ("/DET/" ++ ds ++ "CH" ++ b)%string /\ ds <> "" /\ all_digits ds /\ n = decimal ds.
Proof.
  intros s n. unfold match_module. split.
  - destruct (strip_prefix "/DET/" s) as [r|] eqn:E; [|discriminate]. apply strip_prefix_spec in E. subst s.
    destruct (take_digits r) as [d t] eqn:Et. apply take_digits_spec in Et. destruct Et as (-> & Hd & _).
    destruct d as [|c d]; [discriminate|]. destruct (starts_with "CH" t) eqn:Es; [|discriminate]. intros H. injection H as <-.
    apply starts_with_spec in Es. destruct Es as (b & ->). exists (String c d), b. split; [reflexivity|]. split; [discriminate|]. split; [assumption|]. apply int_of_decimal.
  - intros (ds & b & -> & Hne & Hd & ->). rewrite (proj2 (strip_prefix_spec "/DET/" _ _) eq_refl).
    rewrite take_digits_app; [|assumption|reflexivity]. destruct ds as [|c ds]; [contradiction|].
    rewrite (proj2 (starts_with_spec "CH" _)); [|exists b; reflexivity]. now rewrite int_of_decimal.
Qed.
Lemma find_module_sound : forall s n, find_module s = Some n -> names_module s n.
Proof.
  induction s as [|c s IH]; intros n H; cbn [find_module] in H.
  - destruct (match_module "") eqn:E; [|discriminate]. discriminate.
  - destruct (match_module (String c s)) as [k|] eqn:E.
    + injection H as ->. apply match_module_spec in E. destruct E as (ds & b & E & H). exists "", ds, b. auto.
    + destruct (IH _ H) as (a & ds & b & -> & H'). exists (String c a), ds, b. auto.
Qed.
Lemma find_module_complete : forall s n, names_module s n -> exists m, find_module s = Some m.
Proof.
  intros s n (a & ds & b & -> & H). revert H. induction a as [|c a IH]; intros H.
  - assert (X : match_module ("/DET/" ++ ds ++ "CH" ++ b)%string = Some n) by (apply match_module_spec; exists ds, b; tauto).
    change ("" ++ "/DET/" ++ ds ++ "CH" ++ b)%string with ("/DET/" ++ ds ++ "CH" ++ b)%string.
    remember ("/DET/" ++ ds ++ "CH" ++ b)%string as t eqn:Et. clear Et. exists n. destruct t; cbn [find_module]; now rewrite X.
  - change ((String c a ++ "/DET/" ++ ds ++ "CH" ++ b)%string) with (String c (a ++ "/DET/" ++ ds ++ "CH" ++ b)). cbn [find_module].
    destruct (match_module _); [eauto|auto].
Qed.
Lemma append_nil_r_s : forall s : string, (s ++ "" = s)%string.
Proof. induction s as [|c s IH]; simpl; [reflexivity|now rewrite IH]. Qed.
Lemma append_assoc_st : forall a b c : string, ((a ++ b) ++ c = a ++ b ++ c)%string.
Proof. induction a as [|x a IH]; intros; simpl; [reflexivity|now rewrite IH]. Qed.
Lemma decimal_snoc : forall s c, decimal (s ++ String c "")%string = (10 * decimal s + digit_val c)%Z.
Proof.
  intros s c. rewrite <- (int_of_decimal (s ++ String c "")), <- (int_of_decimal s). unfold int_of.
  assert (H : forall s acc, int_from acc (s ++ String c "")%string = (10 * int_from acc s + digit_val c)%Z).
  { induction s0 as [|x s0 IH]; intros acc; cbn [append int_from]; [reflexivity|apply IH]. }
  apply H.
Qed.
Lemma all_digits_snoc : forall s c, all_digits s -> is_digit c = true -> all_digits (s ++ String c "")%string.
Proof. induction s as [|x s IH]; intros c H Hc; cbn [append]; [simpl; auto|]. destruct H. simpl; auto. Qed.
Lemma groups_spec : forall s, (forall ds, ds <> "" -> all_digits ds -> digit_groups (ds ++ s)%string (groups (Some (decimal ds)) s)) /\
  digit_groups s (groups None s).
Proof.
  induction s as [|c s [IH1 IH2]]; cbn [groups].
  - split; [|constructor]. intros ds Hne Hd. apply (dg_group Hne Hd (s := "") (l := [])); [exact I|constructor].
  - destruct (is_digit c) eqn:E.
    + split.
      * intros ds Hne Hd. rewrite <- decimal_snoc. replace (ds ++ String c s)%string with ((ds ++ String c "") ++ s)%string by (rewrite append_assoc_st; reflexivity).
        apply IH1; [|now apply all_digits_snoc]. destruct ds; discriminate.
      * replace (10 * 0 + digit_val c)%Z with (decimal (String c "")) by (cbn; lia). apply (IH1 (String c "")); [discriminate|simpl; auto].
    + split.
      * intros ds Hne Hd. apply dg_group; auto. now constructor.
      * now constructor.
Qed.
Lemma name_numbers_spec : forall s, digit_groups s (name_numbers s).
Proof. intros s. apply groups_spec. Qed.
Lemma zlist_leb_spec : forall a b, zlist_leb a b = true <-> lex_le a b.
Proof.
  induction a as [|x a IH]; intros b; simpl.
  - split; [|reflexivity]. intros _. left. exists b. reflexivity.
  - destruct b as [|y b].
    + split; [discriminate|]. intros [(t & E)|(p & u & v & a' & b' & E1 & E2 & _)]; [discriminate|destruct p; discriminate].
    + destruct (Z.ltb_spec x y) as [Hlt|Hge].
      { split; [|reflexivity]. intros _. right. exists [], x, y, a, b. auto. }
      destruct (Z.ltb_spec y x) as [Hlt|Hle].
      { split; [discriminate|]. intros [(t & E)|(p & u & v & a' & b' & E1 & E2 & L)]; [injection E as -> _; lia|].
        destruct p; injection E1 as -> ->; injection E2 as -> ->; lia. }
      assert (x = y) by lia. subst y. rewrite IH. split.
      * intros [(t & ->)|(p & u & v & a' & b' & -> & -> & L)]; [left; exists t; reflexivity|right; exists (x :: p), u, v, a', b'; auto].
      * intros [(t & E)|(p & u & v & a' & b' & E1 & E2 & L)]; [left; exists t; injection E as ->; reflexivity|].
        destruct p; [injection E1 as -> ->; injection E2 as -> ->; lia|]. right. exists p, u, v, a', b'. injection E1 as -> ->. injection E2 as ->. auto.
Qed.
