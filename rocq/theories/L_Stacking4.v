(** Lemmas: stack_data. *)
From Verif Require Import Base PyStr M_Nd M_Stacking S_Stacking L_Base L_Stacking L_Stacking2.
Set Implicit Arguments.
Unset Strict Implicit.
Local Open Scope string_scope.
Local Open Scope list_scope.

Lemma groups_digits : forall ds acc s, all_digits ds -> groups (Some acc) (ds ++ s)%string = groups (Some (int_from acc ds)) s.
Proof.
  induction ds as [|c ds IH]; intros acc s H; [reflexivity|]. destruct H as [H1 H2]. cbn [append groups int_from]. rewrite H1. apply IH. assumption.
Qed.
Lemma digit_groups_fun : forall s l, digit_groups s l -> l = name_numbers s.
Proof.
  unfold name_numbers. intros s l H. induction H as [|c s l Hc H IH|ds s l Hn Hd Hf H IH].
  - reflexivity.
  - cbn [groups]. now rewrite Hc.
  - destruct ds as [|c ds]; [contradiction|]. assert (Hd' := Hd). destruct Hd' as [Hc Hr]. cbn [append groups]. rewrite Hc.
    rewrite groups_digits by assumption. change (int_from (10 * 0 + digit_val c) ds) with (int_of (String c ds)). rewrite int_of_decimal.
    destruct s as [|c' s]; cbn [groups]; [simpl in IH; now subst|]. simpl in Hf. rewrite Hf. cbn [groups] in IH. rewrite Hf in IH. now subst.
Qed.
Lemma zlist_leb_total : forall a b, zlist_leb a b = true \/ zlist_leb b a = true.
Proof.
  induction a as [|x a IH]; intros [|y b]; simpl; auto. destruct (Z.ltb_spec x y); [auto|]. destruct (Z.ltb_spec y x); auto.
Qed.
Lemma zlist_leb_trans : forall a b c, zlist_leb a b = true -> zlist_leb b c = true -> zlist_leb a c = true.
Proof.
  induction a as [|x a IH]; intros [|y b] [|z c]; simpl; auto; try discriminate.
  destruct (Z.ltb_spec x y), (Z.ltb_spec y x), (Z.ltb_spec y z), (Z.ltb_spec z y), (Z.ltb_spec x z), (Z.ltb_spec z x); try lia; try discriminate; auto. apply IH.
Qed.
Definition nleb (a b : string) : bool := zlist_leb (name_numbers a) (name_numbers b).
Lemma nleb_by_numbers : forall a b, nleb a b = true -> by_numbers a b.
Proof. intros a b H la lb Ha Hb. apply digit_groups_fun in Ha, Hb. subst. now apply zlist_leb_spec. Qed.
Lemma nsort_sorted : forall l, StronglySorted by_numbers (isort nleb l).
Proof.
  intros l. assert (H : StronglySorted (fun a b => nleb a b = true) (isort nleb l)).
  { apply Sorted_StronglySorted; [intros a b c; apply zlist_leb_trans|]. apply isort_Sorted. intros a b. apply zlist_leb_total. }
  induction H as [|a r H IH Hf]; constructor; [assumption|]. eapply Forall_impl; [|exact Hf]. intros b. apply nleb_by_numbers.
Qed.

Section D.
Context {V : Type}.
Notation nd := (nd V).
Implicit Types (train : @train_data V).
Definition dev_array train (key : string) (d : string) : res nd :=
  match dict_get d train with
  | Some keys => match dict_get key keys with Some a => Ok a | None => Err EKeyError end
  | None => Err EKeyError end.
Lemma dict_get_some_in : forall B (d : list (string * B)) k v, dict_get k d = Some v -> In (k, v) d.
Proof. intros B. induction d as [|[k' v'] d IH]; intros k v; simpl; [discriminate|]. destruct (String.eqb_spec k k') as [->|]; [intros E; injection E as ->; now left|auto]. Qed.
Lemma dict_get_none_notin : forall B (d : list (string * B)) k, dict_get k d = None -> ~ In k (map fst d).
Proof. intros B. induction d as [|[k' v'] d IH]; intros k; simpl; [auto|]. destruct (String.eqb_spec k k') as [->|]; [discriminate|]. intros H [E|K]; [congruence|]. exact (IH _ H K). Qed.
Lemma dict_in_get : forall B (d : list (string * B)) k v, NoDup (map fst d) -> In (k, v) d -> dict_get k d = Some v.
Proof.
  intros B. induction d as [|[k' v'] d IH]; intros k v H Hi; [destruct Hi|]. inversion H as [|? ? H1 H2]; subst. simpl.
  destruct Hi as [E|Hi]; [injection E as -> ->; now rewrite String.eqb_refl|].
  destruct (String.eqb_spec k k') as [->|_]; [|auto]. exfalso. apply H1. apply (in_map fst) in Hi. exact Hi.
Qed.
Lemma str_in_spec : forall s l, str_in s l = true <-> In s l.
Proof.
  intros s l. unfold str_in. rewrite existsb_exists. split; [intros (x & H & E); apply String.eqb_eq in E; now subst|].
  intros H. exists s. split; [assumption|apply String.eqb_refl].
Qed.
Lemma kept_devices : forall train xcept d, In d (filter (fun d => negb (str_in d xcept)) (dict_keys train)) <-> In d (map fst train) /\ ~ In d xcept.
Proof.
  intros train xcept d. rewrite filter_In. unfold dict_keys. rewrite negb_true_iff. assert (X := str_in_spec d xcept).
  destruct (str_in d xcept); intuition congruence.
Qed.
Lemma to_stack_intro : forall train key xcept arrays, NoDup (map fst train) ->
  mapM (dev_array train key) (isort nleb (filter (fun d => negb (str_in d xcept)) (dict_keys train))) = Ok arrays ->
  to_stack train key xcept (isort nleb (filter (fun d => negb (str_in d xcept)) (dict_keys train))) arrays.
Proof.
  intros train key xcept arrays Hd Hm. set (devs := filter _ _) in *. assert (P := isort_perm nleb devs). split; [|split; [|split]].
  - eapply Permutation_NoDup; [exact P|]. apply NoDup_filter. exact Hd.
  - apply nsort_sorted.
  - intros d. rewrite <- kept_devices. fold devs. split; apply Permutation_in; [symmetry|]; assumption.
  - apply mapM_ok_iff in Hm. clear - Hm. induction Hm as [|d a l l' Hx Hm IH]; constructor; [|assumption]. revert Hx. unfold dev_array.
    destruct (dict_get d train) as [ks|] eqn:E; [|discriminate]. destruct (dict_get key ks) as [a'|] eqn:E'; [|discriminate]. intros K. injection K as ->.
    exists ks. split; [now apply dict_get_some_in|assumption].
Qed.
Lemma nth_insert : forall k i r d, (k <= List.length r)%nat -> nth k (insert_at k i r) (d : nat) = i.
Proof. intros. now apply nth_insert_at. Qed.
Definition same_kind (arrays : list nd) (shape : list nat) (dt : string) : Prop := forall a, In a arrays -> nd_shape a = shape /\ nd_dtype a = dt.

Lemma np_stack_ok : forall (arrays : list nd) axis r, np_stack arrays axis = Ok r ->
  exists shape k, arrays <> [] /\ (forall a, In a arrays -> nd_shape a = shape) /\
    (k <= List.length shape)%nat /\ (axis = Z.of_nat k \/ axis + Z.of_nat (S (List.length shape)) = Z.of_nat k)%Z /\
    nd_shape r = insert_at k (@List.length nd arrays) shape /\ (exists a, In a arrays /\ nd_dtype r = nd_dtype a) /\
    forall i idx a, nth_error arrays i = Some a -> (k <= List.length idx)%nat -> nd_at r (insert_at k i idx) = nd_at a idx.
Proof.
  intros arrays axis r H. unfold np_stack in H. destruct arrays as [|a0 rest] eqn:Ea; [discriminate|]. rewrite <- Ea in *.
  destruct (forallb (fun b => nat_list_eqb (nd_shape b) (nd_shape a0)) rest) eqn:Ef; [|discriminate].
  destruct (norm_axis (S (nd_ndim a0)) axis) as [k|] eqn:Ek; [|discriminate]. cbn [bind] in H. injection H as <-. exists (nd_shape a0), k.
  split; [rewrite Ea; discriminate|]. split.
  { intros a Hi. rewrite Ea in Hi. destruct Hi as [->|Hi]; [reflexivity|]. rewrite forallb_forall in Ef. apply nat_list_eqb_spec. auto. }
  split; [apply norm_axis_le in Ek; exact Ek|]. split.
  { unfold norm_axis, nd_ndim in Ek. destruct (Z.ltb_spec axis 0).
    - match type of Ek with (if ?c then _ else _) = _ => destruct c eqn:E; [|discriminate] end. injection Ek as <-. apply andb_prop in E. destruct E as [E1 E2]. apply Z.leb_le in E1. apply Z.ltb_lt in E2. right. rewrite Z2Nat.id by exact E1. reflexivity.
    - match type of Ek with (if ?c then _ else _) = _ => destruct c eqn:E; [|discriminate] end. injection Ek as <-. left. lia. }
  split; [reflexivity|]. split; [exists a0; split; [rewrite Ea; now left|reflexivity]|].
  intros i idx a Hn Hl. cbn [nd_at]. rewrite nth_insert by assumption. rewrite remove_insert_at by assumption. now rewrite (nth_error_nth _ _ a0 Hn).
Qed.

Lemma stack_data_ok : forall train key axis xcept r, NoDup (map fst train) -> stack_data train key axis xcept = Ok r ->
  exists devs arrays shape k, to_stack train key xcept devs arrays /\ devs <> [] /\
    (forall a, In a arrays -> nd_shape a = shape /\ nd_dtype a = nd_dtype r) /\
    (k <= List.length shape)%nat /\ (axis = Z.of_nat k \/ axis + Z.of_nat (S (List.length shape)) = Z.of_nat k)%Z /\
    nd_shape r = insert_at k (List.length devs) shape /\
    forall i idx a, nth_error arrays i = Some a -> in_range shape idx -> nd_at r (insert_at k i idx) = nd_at a idx.
Proof.
  intros train key axis xcept r Hd H. unfold stack_data in H. set (devs := filter (fun d => negb (str_in d xcept)) (dict_keys train)) in *.
  fold nleb in H. change (mapM _ (isort _ devs)) with (mapM (dev_array train key) (isort nleb devs)) in H.
  assert (Hne : devs <> []) by (intros E; rewrite E in H; discriminate).
  destruct devs as [|d0 dr] eqn:Edv; [contradiction|]. rewrite <- Edv in *. destruct (mapM (dev_array train key) (isort nleb devs)) as [arrays|] eqn:Em; [|discriminate].
  cbn [bind] in H. destruct (Nat.ltb_spec 1 (List.length (nodup string_dec (map (@nd_dtype V) arrays)))) as [|Hl]; [discriminate|].
  assert (T := @to_stack_intro train key xcept arrays Hd Em). fold devs in T.
  destruct (np_stack_ok H) as (shape & k & H1 & H2 & H3 & H4 & H5 & (a1 & Ha1 & H6) & H7).
  exists (isort nleb devs), arrays, shape, k. split; [exact T|]. split.
  { intros E. assert (P := isort_perm nleb devs). rewrite E in P. apply Permutation_sym, Permutation_nil in P. contradiction. }
  split. { intros a Ha. split; [auto|]. rewrite H6. apply (nodup_one Hl); now apply in_map. }
  split; [assumption|]. split; [assumption|]. split.
  { apply mapM_length in Em. now rewrite <- Em. }
  intros i idx a Hn Hi. apply H7; [assumption|]. apply in_range_length in Hi. lia.
Qed.

Lemma stack_data_accepts : forall train key axis xcept, NoDup (map fst train) ->
  ((exists r, stack_data train key axis xcept = Ok r) <->
   (exists d, In d (map fst train) /\ ~ In d xcept) /\
   exists shape dt, (forall d ks, In (d, ks) train -> ~ In d xcept -> exists a, dict_get key ks = Some a /\ nd_shape a = shape /\ nd_dtype a = dt) /\
     (- Z.of_nat (S (List.length shape)) <= axis <= Z.of_nat (List.length shape))%Z).
Proof.
  intros train key axis xcept Hd. split.
  - intros (r & H). destruct (stack_data_ok Hd H) as (devs & arrays & shape & k & T & H1 & H2 & H3 & H4 & H5 & H6). destruct T as (T1 & T2 & T3 & T4).
    split; [destruct devs as [|d0 dr]; [contradiction|]; exists d0; apply T3; now left|]. exists shape, (nd_dtype r). split; [|lia].
    intros d ks Hi Hx. assert (Hdv : In d devs) by (apply T3; split; [apply (in_map fst) in Hi; exact Hi|assumption]).
    clear - Hd T4 Hi Hdv H2. induction T4 as [|d' a devs arrays (ks' & K1 & K2) T4 IH]; [destruct Hdv|]. destruct Hdv as [->|Hdv].
    + assert (E : dict_get d train = Some ks) by now apply dict_in_get. assert (E' : dict_get d train = Some ks') by now apply dict_in_get.
      assert (ks' = ks) by congruence. subst. exists a. split; [assumption|]. apply H2. now left.
    + apply IH; [|assumption]. intros b Hb. apply H2. now right.
  - intros ((d0 & K1 & K2) & shape & dt & Ha & Hax). unfold stack_data. set (devs := filter (fun d => negb (str_in d xcept)) (dict_keys train)) in *.
    change (mapM _ (isort _ devs)) with (mapM (dev_array train key) (isort nleb devs)).
    assert (Hin : In d0 devs) by now apply kept_devices.
    assert (Hdev : forall d, In d (isort nleb devs) -> exists a, dev_array train key d = Ok a /\ nd_shape a = shape /\ nd_dtype a = dt).
    { intros d Hi. eapply Permutation_in in Hi; [|symmetry; apply isort_perm]. apply kept_devices in Hi. destruct Hi as [Hi Hx]. apply in_map_iff in Hi.
      destruct Hi as ([d' ks] & E & Hi). simpl in E. subst d'. destruct (Ha _ _ Hi Hx) as (a & A1 & A2). exists a. unfold dev_array. rewrite (dict_in_get Hd Hi), A1. auto. }
    destruct devs as [|d1 dr] eqn:Edv; [destruct Hin|]. rewrite <- Edv in *.
    destruct (@mapM_total _ _ (dev_array train key) (isort nleb devs)) as (arrays & Em).
    { intros d Hi. destruct (Hdev d Hi) as (a & E & _). eauto. }
    rewrite Em. cbn [bind]. assert (Hall : forall a, In a arrays -> nd_shape a = shape /\ nd_dtype a = dt).
    { apply mapM_ok_iff in Em. clear -Em Hdev. induction Em as [|d a l arrays E Em IH]; [intros a []|]. intros b [->|Hb].
      - destruct (Hdev d) as (a' & E' & K); [now left|]. congruence.
      - apply IH; [|assumption]. intros d' Hd'. apply Hdev. now right. }
    assert (Hlen : List.length arrays = List.length (isort nleb devs)) by now apply mapM_length in Em.
    assert (Hpos : arrays <> []).
    { intros E. rewrite E in Hlen. simpl in Hlen. assert (P := isort_perm nleb devs). apply Permutation_length in P. rewrite Edv in *. simpl in *. lia. }
    destruct (Nat.ltb_spec 1 (List.length (nodup string_dec (map (@nd_dtype V) arrays)))) as [Hl|_].
    { exfalso. assert (X : forall x, In x (nodup string_dec (map (@nd_dtype V) arrays)) -> x = dt).
      { intros x. rewrite nodup_In, in_map_iff. intros (a & <- & Hi). now apply Hall. }
      assert (N := NoDup_nodup string_dec (map (@nd_dtype V) arrays)). destruct (nodup string_dec (map (@nd_dtype V) arrays)) as [|x [|y l]]; simpl in Hl; try lia.
      inversion N as [|? ? N1 N2]. apply N1. left. rewrite (X x), (X y); simpl; auto. }
    unfold np_stack. destruct arrays as [|a0 rest]; [contradiction|]. assert (E0 : nd_shape a0 = shape) by (apply Hall; now left).
    assert (Ef : forallb (fun b => nat_list_eqb (nd_shape b) (nd_shape a0)) rest = true).
    { apply forallb_forall. intros b Hb. apply nat_list_eqb_spec. rewrite E0. apply Hall. now right. }
    rewrite Ef. unfold nd_ndim. rewrite E0. unfold norm_axis.
    match goal with |- context[if ?c then Ok _ else _] => destruct c eqn:E end; [cbn [bind]; eauto|]. exfalso.
    revert E. destruct (Z.ltb_spec axis 0); rewrite andb_false_iff, Z.leb_gt, Z.ltb_ge; lia.
Qed.
Lemma mapM_err_key : forall train key l e, mapM (dev_array train key) l = Err e -> e = EKeyError.
Proof.
  intros train key. induction l as [|d l IH]; intros e H; simpl in H; [discriminate|]. destruct (dev_array train key d) as [a|e'] eqn:E; cbn [bind] in H.
  - destruct (mapM (dev_array train key) l); [discriminate|]. injection H as <-. eauto.
  - injection H as <-. unfold dev_array in E. destruct (dict_get d train) as [ks|]; [destruct (dict_get key ks)|]; congruence.
Qed.
Lemma stack_data_errors : forall train key axis xcept e, NoDup (map fst train) -> stack_data train key axis xcept = Err e ->
  (e = EKeyError /\ exists d ks, In (d, ks) train /\ ~ In d xcept /\ dict_get key ks = None) \/
  (e = EValueError /\ forall d ks, In (d, ks) train -> ~ In d xcept -> dict_get key ks <> None).
Proof.
  intros train key axis xcept e Hd H. unfold stack_data in H. set (devs := filter (fun d => negb (str_in d xcept)) (dict_keys train)) in *.
  change (mapM _ (isort _ devs)) with (mapM (dev_array train key) (isort nleb devs)) in H.
  assert (Hk : forall d ks, In (d, ks) train -> ~ In d xcept -> In d devs).
  { intros d ks Hi Hx. apply kept_devices. split; [apply (in_map fst) in Hi; exact Hi|assumption]. }
  destruct devs as [|d0 dr] eqn:Edv.
  - injection H as <-. right. split; [reflexivity|]. intros d ks Hi Hx. destruct (Hk d ks Hi Hx).
  - rewrite <- Edv in *. destruct (mapM (dev_array train key) (isort nleb devs)) as [arrays|e'] eqn:Em; cbn [bind] in H.
    + right. split.
      * destruct (1 <? _)%nat; [congruence|]. unfold np_stack in H. destruct arrays as [|a r]; [congruence|]. destruct (forallb _ r); [|congruence].
        unfold norm_axis in H. match type of H with context[if ?c then Ok _ else _] => destruct c end; [discriminate|]. simpl in H. congruence.
      * intros d ks Hi Hx E. apply mapM_ok_iff in Em. assert (Hi' : In d (isort nleb devs)) by (eapply Permutation_in; [apply isort_perm|eauto]).
        clear -Em Hi Hi' E Hd. induction Em as [|d' a l arrays K Em IH]; [destruct Hi'|]. destruct Hi' as [->|Hi']; [|auto].
        unfold dev_array in K. rewrite (dict_in_get Hd Hi), E in K. discriminate.
    + injection H as <-. left. rewrite (mapM_err_key Em). split; [reflexivity|].
      assert (X : exists d, In d (isort nleb devs) /\ exists e, dev_array train key d = Err e).
      { clear -Em. revert e' Em. induction (isort nleb devs) as [|d l IH]; intros e Em; simpl in Em; [discriminate|].
        destruct (dev_array train key d) as [a|e0] eqn:E; [|exists d; split; [now left|eauto]]. cbn [bind] in Em.
        destruct (mapM (dev_array train key) l) as [|e1]; [discriminate|]. destruct (IH e1 eq_refl) as (d' & K1 & K2). exists d'. split; [now right|assumption]. }
      destruct X as (d & Hi & e0 & E). eapply Permutation_in in Hi; [|symmetry; apply isort_perm]. apply kept_devices in Hi. destruct Hi as [Hi Hx].
      apply in_map_iff in Hi. destruct Hi as ([d' ks] & Ed & Hi). simpl in Ed. subst d'. exists d, ks. split; [assumption|]. split; [assumption|].
      unfold dev_array in E. rewrite (dict_in_get Hd Hi) in E. destruct (dict_get key ks); [discriminate|reflexivity].
Qed.
End D.

(** ** Numbers of modules *)
Lemma find_module_first : forall s n, find_module s = Some n -> module_number s n.
Proof.
  induction s as [|c s IH]; intros n H; cbn [find_module] in H.
  - destruct (match_module "") eqn:E; [|discriminate]. discriminate.
  - destruct (match_module (String c s)) as [k|] eqn:E.
    + injection H as ->. apply match_module_spec in E. destruct E as (ds & b & E & H1 & H2 & H3). exists "", ds, b. repeat split; auto. intros. simpl. lia.
    + destruct (IH _ H) as (a & ds & b & -> & H1 & H2 & H3 & H4). exists (String c a), ds, b. repeat split; auto.
      intros [|c' a'] ds' b' E' K1 K2.
      * exfalso. assert (X : match_module (String c (a ++ "/DET/" ++ ds ++ "CH" ++ b)%string) = Some (decimal ds')) by (apply match_module_spec; exists ds', b'; auto).
        congruence.
      * cbn [append] in E'. injection E' as _ E'. cbn [String.length]. apply le_n_S. exact (H4 a' ds' b' E' K1 K2).
Qed.
Lemma append_same_length : forall a a' b b', (a ++ b = a' ++ b')%string -> String.length a = String.length a' -> a = a' /\ b = b'.
Proof.
  induction a as [|c a IH]; intros [|c' a'] b b' E H; simpl in *; try discriminate; [auto|]. injection E as -> E. injection H as H. destruct (IH _ _ _ E H) as [-> ->]. auto.
Qed.
Lemma module_number_fun : forall s n m, module_number s n -> module_number s m -> n = m.
Proof.
  intros s n m (a & ds & b & E & H1 & H2 & H3 & H4) (a' & ds' & b' & E' & K1 & K2 & K3 & K4).
  assert (L : String.length a = String.length a') by (apply Nat.le_antisymm; [exact (H4 _ _ _ E' K1 K2)|exact (K4 _ _ _ E H1 H2)]).
  rewrite E in E'. destruct (append_same_length E' L) as [_ X]. cbn [append] in X. injection X as X.
  assert (T1 : take_digits (ds ++ "CH" ++ b)%string = (ds, ("CH" ++ b)%string)) by (apply take_digits_app; [assumption|reflexivity]).
  assert (T2 : take_digits (ds' ++ "CH" ++ b')%string = (ds', ("CH" ++ b')%string)) by (apply take_digits_app; [assumption|reflexivity]).
  cbn [append] in T1, T2. rewrite X in T1. rewrite T1 in T2. congruence.
Qed.
Lemma find_module_iff : forall s n, find_module s = Some n <-> module_number s n.
Proof.
  intros s n. split; [apply find_module_first|]. intros H.
  destruct (find_module_complete (s := s) (n := n)) as (m & E).
  { destruct H as (a & ds & b & H1 & H2 & H3 & H4 & _). exists a, ds, b. auto. }
  rewrite E. f_equal. apply find_module_first in E. eapply module_number_fun; eassumption.
Qed.
Section G.
Context {V : Type}.
Variable cast : string -> V -> V.
Lemma views_good : forall (train : @train_data V) key axis modules fill v, stack_detector_view train key axis modules fill = Ok v ->
  (- Z.of_nat (sv_ndim v) <= axis < Z.of_nat (sv_ndim v))%Z -> good_view v.
Proof.
  intros train key axis modules fill v H Hax. apply (view_sound cast) in H. destruct H as (V1 & V2 & V3 & V4 & V5 & V6 & V7 & V8 & V9). unfold sv_ndim in Hax.
  split; [rewrite V9; destruct (Z.ltb_spec axis 0); lia|]. split; [assumption|]. split; [assumption|]. intros m a K. rewrite V7. split; [exact (V6 _ _ K)|].
  apply V5 in K. destruct K as [K1 K2]. split; [assumption|]. destruct (V2 a) as [X _]; [eapply is_module_array; exact K1|exact X].
Qed.
End G.
