(** Lemmas about stacking: [stack_detector_data] and [stack_data]. *)
From Verif Require Import Base PyStr M_Nd M_Stacking S_Stacking L_Base L_Stacking.
Set Implicit Arguments.
Unset Strict Implicit.
Local Open Scope string_scope.
Local Open Scope list_scope.

Lemma decimal_nonneg : forall s, (0 <= decimal s)%Z.
Proof. induction s as [|c s IH]; cbn [decimal]; [lia|]. unfold digit_val. assert (0 <= 10 ^ Z.of_nat (String.length s))%Z by (apply Z.pow_nonneg; lia). nia. Qed.
Lemma find_module_nonneg : forall s n, find_module s = Some n -> (0 <= n)%Z.
Proof. intros s n H. apply find_module_sound in H. destruct H as (a & ds & b & _ & _ & _ & ->). apply decimal_nonneg. Qed.

Lemma nodup_all_same : forall A (dec : forall x y : A, {x = y} + {x <> y}) l x, l <> [] -> (forall y, In y l -> y = x) -> nodup dec l = [x].
Proof.
  intros A dec l x Hne H. assert (N := NoDup_nodup dec l). assert (Hin : forall y, In y (nodup dec l) -> y = x).
  { intros y Hy. apply nodup_In in Hy. auto. }
  destruct (nodup dec l) as [|a [|b r]] eqn:E.
  - exfalso. destruct l as [|a l]; [contradiction|]. assert (X : In a (nodup dec (a :: l))) by (apply nodup_In; now left). rewrite E in X. destruct X.
  - f_equal. apply Hin. now left.
  - exfalso. inversion N as [|? ? N1 N2]; subst. apply N1. left. rewrite (Hin a), (Hin b); simpl; auto.
Qed.
Lemma nodup_one : forall A (dec : forall x y : A, {x = y} + {x <> y}) l, (List.length (nodup dec l) <= 1)%nat -> forall x y, In x l -> In y l -> x = y.
Proof.
  intros A dec l H x y Hx Hy. apply (nodup_In dec) in Hx, Hy. destruct (nodup dec l) as [|a [|b r]]; [destruct Hx| |simpl in H; lia].
  destruct Hx as [<-|[]], Hy as [<-|[]]. reflexivity.
Qed.
Lemma two_perm : forall A (D : list A) x y, NoDup D -> x <> y -> In x D -> In y D -> (forall z, In z D -> z = x \/ z = y) ->
  D = [x; y] \/ D = [y; x].
Proof.
  intros A D x y N Hne Hx Hy H. assert (L : (List.length D <= 2)%nat).
  { change 2%nat with (List.length [x; y]). apply NoDup_incl_length; [assumption|]. intros z Hz. destruct (H z Hz) as [->| ->]; simpl; auto. }
  destruct D as [|a [|b [|c r]]]; simpl in L; try lia.
  - destruct Hx.
  - destruct Hx as [->|[]], Hy as [->|[]]. contradiction.
  - inversion N as [|? ? N1 _]; subst.
    destruct (H a) as [->| ->]; [now left| |]; destruct (H b) as [->| ->]; try (right; now left); auto; exfalso; apply N1; now left.
Qed.
Lemma nlist_leb_total : forall a b, nlist_leb a b = true \/ nlist_leb b a = true.
Proof.
  induction a as [|x a IH]; intros b; simpl; [now left|]. destruct b as [|y b]; [now right|]. simpl.
  destruct (Nat.ltb_spec x y); [now left|]. destruct (Nat.ltb_spec y x); [now right|apply IH].
Qed.
Lemma nlist_leb_refl : forall a, nlist_leb a a = true.
Proof. induction a as [|x a IH]; simpl; [reflexivity|]. rewrite Nat.ltb_irrefl. assumption. Qed.

Section S.
Context {V : Type}.
Variable cast : string -> V -> V.
Notation nd := (nd V).
Notation train_data := (@train_data V).

Fixpoint last_of (train : train_data) (key : string) (m : Z) : option nd :=
  match train with
  | [] => None
  | (d, keys) :: r => match last_of r key m with
                      | Some a => Some a
                      | None => match find_module d with
                                | Some n => if (m =? n)%Z then dict_get key keys else None
                                | None => None end
                      end
  end.
Lemma last_of_none : forall train key m, last_of train key m = None <->
  forall d ks, In (d, ks) train -> find_module d = Some m -> dict_get key ks = None.
Proof.
  induction train as [|[d keys] train IH]; intros key m; simpl; [split; [intros _ ? ? []|reflexivity]|].
  destruct (last_of train key m) as [a|] eqn:E.
  - split; [discriminate|]. intros H. exfalso. assert (X : last_of train key m = None) by (apply IH; intros; eapply H; eauto). congruence.
  - rewrite IH in E. split.
    + intros H d' ks' [Ed|Hin] Hf; [|eauto]. injection Ed as -> ->. rewrite Hf, Z.eqb_refl in H. assumption.
    + intros H. destruct (find_module d) as [n|] eqn:Ef; [|reflexivity]. destruct (Z.eqb_spec m n) as [->|_]; [|reflexivity]. eapply H; [now left|assumption].
Qed.
Lemma last_of_some : forall train key m a, last_of train key m = Some a <-> is_module train key m a.
Proof.
  induction train as [|[d keys] train IH]; intros key m a; simpl.
  - split; [discriminate|]. intros (b & dev & ks & af & E & _). destruct b; discriminate.
  - destruct (last_of train key m) as [a'|] eqn:E.
    + split.
      * intros H. injection H as ->. apply IH in E. destruct E as (b & dev & ks & af & -> & H). exists ((d, keys) :: b), dev, ks, af. auto.
      * intros (b & dev & ks & af & Eq & H1 & H2 & H3). f_equal. destruct b as [|p b]; inversion Eq; subst.
        { exfalso. assert (X : last_of af key m = None) by (apply last_of_none; assumption). congruence. }
        assert (X : last_of (b ++ (dev, ks) :: af) key m = Some a) by (apply IH; exists b, dev, ks, af; auto). congruence.
    + split.
      * intros H. destruct (find_module d) as [n|] eqn:Ef; [|discriminate]. destruct (Z.eqb_spec m n) as [->|_]; [|discriminate].
        exists [], d, keys, train. split; [reflexivity|]. split; [assumption|]. split; [assumption|]. apply last_of_none. assumption.
      * intros (b & dev & ks & af & Eq & H1 & H2 & H3). destruct b as [|p b]; inversion Eq; subst.
        { rewrite H1, Z.eqb_refl. assumption. }
        exfalso. assert (X : last_of (b ++ (dev, ks) :: af) key m = Some a) by (apply IH; exists b, dev, ks, af; auto). congruence.
Qed.

Definition coll_step (data : string) (acc : list (Z * nd) * list nd) (dev : string * list (string * nd)) : res (list (Z * nd) * list nd) :=
  match find_module (fst dev) with
  | None => Err EValueError
  | Some n => match dict_get data (snd dev) with
              | None => Ok acc
              | Some a => Ok (zd_set n a (fst acc), snd acc ++ [a])
              end
  end.
Lemma collect_gen : forall (train : train_data) key m0 a0, NoDup (map fst m0) -> (forall m a, In (m, a) m0 -> (0 <= m)%Z) ->
  match foldM (coll_step key) (m0, a0) train with
  | Ok (mods, arrays) => (forall dev ks, In (dev, ks) train -> exists m, find_module dev = Some m) /\
      arrays = a0 ++ arrays_of train key /\ NoDup (map fst mods) /\ (forall m a, In (m, a) mods -> (0 <= m)%Z) /\
      (forall m, zd_get m mods = match last_of train key m with Some a => Some a | None => zd_get m m0 end)
  | Err e => e = EValueError /\ exists dev ks, In (dev, ks) train /\ find_module dev = None
  end.
Proof.
  induction train as [|[d keys] train IH]; intros key m0 a0 N0 P0; cbn [foldM].
  - split; [intros ? ? []|]. simpl. rewrite app_nil_r. auto.
  - unfold coll_step at 1. cbn [fst snd]. destruct (find_module d) as [n|] eqn:Ef.
    + destruct (dict_get key keys) as [a|] eqn:Eg; cbn [bind].
      * specialize (IH key (zd_set n a m0) (a0 ++ [a])).
        destruct (foldM (coll_step key) (zd_set n a m0, a0 ++ [a]) train) as [[mods arrays]|e].
        { destruct IH as (I1 & I2 & I3 & I4 & I5); [now apply zd_set_nodup| |].
          { intros m b Hb. apply zd_set_in in Hb. destruct Hb as [[-> _]|Hb]; [eapply find_module_nonneg; eassumption|eauto]. }
          split; [intros dev ks [E|H]; [injection E as <- <-; eauto|eauto]|]. split; [rewrite I2; unfold arrays_of; simpl; rewrite Eg, <- app_assoc; reflexivity|].
          split; [assumption|]. split; [assumption|]. intros m. rewrite I5. simpl. rewrite Ef, Eg, zd_get_set.
          destruct (last_of train key m); [reflexivity|]. destruct (m =? n)%Z; reflexivity. }
        { destruct IH as (I1 & dev & ks & I2 & I3); [now apply zd_set_nodup| |split; [assumption|exists dev, ks; split; [now right|assumption]]].
          intros m b Hb. apply zd_set_in in Hb. destruct Hb as [[-> _]|Hb]; [eapply find_module_nonneg; eassumption|eauto]. }
      * specialize (IH key m0 a0 N0 P0).
        destruct (foldM (coll_step key) (m0, a0) train) as [[mods arrays]|e].
        { destruct IH as (I1 & I2 & I3 & I4 & I5). split; [intros dev ks [E|H]; [injection E as <- <-; eauto|eauto]|].
          split; [rewrite I2; unfold arrays_of; simpl; rewrite Eg; reflexivity|]. split; [assumption|]. split; [assumption|].
          intros m. rewrite I5. simpl. rewrite Ef, Eg. destruct (last_of train key m); [reflexivity|]. destruct (m =? n)%Z; reflexivity. }
        { destruct IH as (I1 & dev & ks & I2 & I3). split; [assumption|]. exists dev, ks. split; [now right|assumption]. }
    + cbn [bind]. split; [reflexivity|]. exists d, keys. split; [now left|assumption].
Qed.
Lemma collect_spec : forall (train : train_data) key,
  match collect_modules train key with
  | Ok (mods, arrays) => (forall dev ks, In (dev, ks) train -> exists m, find_module dev = Some m) /\
      arrays = arrays_of train key /\ NoDup (map fst mods) /\ (forall m a, In (m, a) mods -> (0 <= m)%Z) /\
      (forall m a, In (m, a) mods <-> is_module train key m a)
  | Err e => e = EValueError /\ exists dev ks, In (dev, ks) train /\ find_module dev = None
  end.
Proof.
  intros train key. unfold collect_modules.
  assert (H := @collect_gen train key [] [] (NoDup_nil _) (fun m a H => match H with end)).
  change (fun acc dev => match find_module (fst dev) with | None => Err EValueError | Some n => match dict_get key (snd dev) with
     | None => Ok acc | Some a => Ok (zd_set n a (fst acc), snd acc ++ [a]) end end) with (coll_step key).
  destruct (foldM (coll_step key) ([], []) train) as [[mods arrays]|e]; [|assumption].
  destruct H as (H1 & H2 & H3 & H4 & H5). split; [assumption|]. split; [assumption|]. split; [assumption|]. split; [assumption|].
  intros m a. rewrite <- last_of_some. split.
  - intros Hi. apply (zd_in_get H3) in Hi. rewrite H5 in Hi. destruct (last_of train key m); [assumption|discriminate].
  - intros Hl. apply zd_get_in. rewrite H5, Hl. reflexivity.
Qed.
Lemma is_module_array : forall (train : train_data) key m a, is_module train key m a -> In a (arrays_of train key).
Proof.
  intros train key m a (b & dev & ks & af & -> & _ & H & _). unfold arrays_of. apply in_flat_map. exists (dev, ks).
  split; [apply in_or_app; right; now left|]. simpl. rewrite H. now left.
Qed.

(** What is known about the view made. *)
Definition view_of (train : train_data) (key : string) (axis modules : Z) (fill : V) (v : sview) : Prop :=
  (forall dev ks, In (dev, ks) train -> exists m, find_module dev = Some m) /\
  (forall a, In a (arrays_of train key) -> nd_dtype a = sv_dtype v /\ (nd_shape a = sv_mod_shape v \/ empty_of (sv_mod_shape v) (nd_shape a))) /\
  sv_data v <> [] /\ NoDup (map fst (sv_data v)) /\
  (forall m a, In (m, a) (sv_data v) <-> is_module train key m a /\ nd_shape a = sv_mod_shape v) /\
  (forall m a, In (m, a) (sv_data v) -> (0 <= m < modules)%Z) /\ sv_n v = modules /\ sv_fill v = fill /\
  sv_axis v = (if axis <? 0 then axis + Z.of_nat (S (List.length (sv_mod_shape v))) else axis)%Z.
Lemma max_le : forall (l : list Z) m x, In x l -> (fold_right Z.max 0 l < m)%Z -> (x < m)%Z.
Proof. induction l as [|y l IH]; intros m x H Hm; [destruct H|]. simpl in Hm. destruct H as [->|H]; [lia|]. apply (IH m x H). lia. Qed.
Lemma max_lt_intro : forall (l : list Z) m, (0 < m)%Z -> (forall x, In x l -> (x < m)%Z) -> (fold_right Z.max 0 l < m)%Z.
Proof. induction l as [|y l IH]; intros m Hm H; simpl; [assumption|]. assert (y < m)%Z by (apply H; now left). assert (fold_right Z.max 0 l < m)%Z by (apply IH; [assumption|intros; apply H; now right]). lia. Qed.
Lemma nodup_fst_filter : forall (f : Z * nd -> bool) l, NoDup (map fst l) -> NoDup (map fst (filter f l)).
Proof.
  intros f. induction l as [|x l IH]; intros H; simpl; [constructor|]. inversion H as [|? ? H1 H2]; subst.
  destruct (f x); simpl; [|auto]. constructor; [|auto]. intros K. apply H1. apply in_map_iff in K. destruct K as (y & E & Hy).
  apply filter_In in Hy. rewrite <- E. apply in_map. tauto.
Qed.
Lemma filter_shape : forall (l : list (Z * nd)) s m a, In (m, a) (filter (fun x => negb (nat_list_eqb (nd_shape (snd x)) s)) l) <-> In (m, a) l /\ nd_shape a <> s.
Proof.
  intros l s m a. rewrite filter_In. simpl. rewrite negb_true_iff, <- not_true_iff_false, nat_list_eqb_spec. tauto.
Qed.

Lemma view_sound : forall (train : train_data) key axis modules fill v,
  stack_detector_view train key axis modules fill = Ok v -> view_of train key axis modules fill v.
Proof.
  intros train key axis modules fill v H. unfold stack_detector_view in H. destruct train as [|dev0 train0]; [discriminate|].
  set (train := dev0 :: train0) in *. assert (C := collect_spec train key).
  destruct (collect_modules train key) as [[mods arrays]|]; [|discriminate]. cbn [bind] in H.
  destruct C as (C1 & -> & C3 & C4 & C5). set (arrays := arrays_of train key) in *.
  destruct (Nat.ltb_spec 1 (List.length (nodup string_dec (map (@nd_dtype V) arrays)))) as [|Hdt]; [discriminate|].
  destruct (Nat.ltb_spec 1 (List.length (nodup (list_eq_dec Nat.eq_dec) (map (@nd_shape V) arrays)))) as [Hsh|Hsh].
  - (* two shapes *)
    assert (P := isort_perm nlist_leb (nodup (list_eq_dec Nat.eq_dec) (map (@nd_shape V) arrays))).
    set (D := nodup (list_eq_dec Nat.eq_dec) (map (@nd_shape V) arrays)) in *.
    destruct (isort nlist_leb D) as [|s1 [|s2 rest]] eqn:Es; try discriminate.
    destruct (Nat.ltb_spec 2 (List.length D)) as [|Hl]; [discriminate|].
    assert (rest = []).
    { apply Permutation_length in P. simpl in P. destruct rest; [reflexivity|simpl in P; lia]. } subst rest.
    destruct s1 as [|d t]; [discriminate|].
    destruct (negb (d =? 0)%nat || negb (nat_list_eqb t (tl s2))) eqn:Eo; [discriminate|]. apply orb_false_iff in Eo. destruct Eo as [E0 Et].
    apply negb_false_iff in E0, Et. apply Nat.eqb_eq in E0. apply nat_list_eqb_spec in Et. subst d.
    assert (Hne : 0%nat :: t <> s2).
    { assert (N : NoDup [0%nat :: t; s2]) by (eapply Permutation_NoDup; [exact P|apply NoDup_nodup]). inversion N as [|? ? N1 _]; subst. intros E. apply N1. now left. }
    assert (HD : forall s, In s (map (@nd_shape V) arrays) <-> s = 0%nat :: t \/ s = s2).
    { intros s. rewrite <- (nodup_In (list_eq_dec Nat.eq_dec)). fold D. split.
      - intros K. apply (Permutation_in _ P) in K. simpl in K. intuition congruence.
      - intros K. apply (Permutation_in _ (Permutation_sym P)). simpl. intuition congruence. }
    cbn [bind] in H. set (mods' := filter _ mods) in H. destruct mods' as [|x mods''] eqn:Em; [discriminate|]. rewrite <- Em in H.
    assert (M : forall m a, In (m, a) mods' <-> In (m, a) mods /\ nd_shape a <> 0%nat :: t) by (intros; apply filter_shape).
    destruct (Z.leb_spec modules (fold_right Z.max 0%Z (map fst mods'))) as [|Hmax]; [discriminate|].
    destruct (nodup string_dec (map (@nd_dtype V) arrays)) as [|dt dts] eqn:Edt; [discriminate|].
    destruct (filter (fun s => negb (nat_list_eqb s (0%nat :: t))) D) as [|sh shs] eqn:Ef; [discriminate|]. injection H as <-.
    assert (Hsh2 : sh = s2).
    { assert (X : In sh (filter (fun s => negb (nat_list_eqb s (0%nat :: t))) D)) by (rewrite Ef; now left). apply filter_In in X. destruct X as [X1 X2].
      unfold D in X1; rewrite nodup_In in X1. apply HD in X1. destruct X1 as [->|]; [|assumption].
      apply negb_true_iff, not_true_iff_false in X2. exfalso. apply X2. now apply nat_list_eqb_spec. }
    rewrite <- Edt in Hdt. subst sh. unfold view_of, make_view. cbn [sv_data sv_n sv_mod_shape sv_dtype sv_fill sv_axis].
    assert (Hdt' : forall a, In a arrays -> nd_dtype a = dt).
    { intros a Ha. apply (nodup_one Hdt); [now apply in_map|]. rewrite <- (nodup_In string_dec), Edt. now left. }
    assert (Es2 : s2 <> []).
    { intros ->. assert (X := isort_Sorted nlist_leb nlist_leb_total D). rewrite Es in X. inversion X as [|? ? _ X2]; subst. inversion X2 as [|? ? X3]; subst. discriminate X3. }
    assert (M2 : forall m a, In (m, a) mods' <-> is_module train key m a /\ nd_shape a = s2).
    { intros m a. rewrite M, C5. split; intros [K1 K2]; (split; [assumption|]).
      - assert (X : In (nd_shape a) (map (@nd_shape V) arrays)) by (apply in_map; eapply is_module_array; exact K1). apply HD in X. tauto.
      - congruence. }
    split; [assumption|]. split.
    { intros a Ha. split; [auto|]. assert (X : In (nd_shape a) (map (@nd_shape V) arrays)) by now apply in_map. apply HD in X.
      destruct X as [X|X]; [right; split; [assumption|congruence]|now left]. }
    split; [rewrite Em; discriminate|]. split; [apply nodup_fst_filter; assumption|]. split; [assumption|]. split.
    { intros m a K. split; [apply M in K; destruct K; eauto|]. eapply max_le; [|exact Hmax]. apply (in_map fst) in K. exact K. }
    auto.
  - (* one shape *)
    cbn [bind] in H. destruct mods as [|x mods'] eqn:Em; [discriminate|]. rewrite <- Em in *.
    destruct (Z.leb_spec modules (fold_right Z.max 0%Z (map fst mods))) as [|Hmax]; [discriminate|].
    destruct (nodup string_dec (map (@nd_dtype V) arrays)) as [|dt dts] eqn:Edt; [discriminate|].
    destruct (nodup (list_eq_dec Nat.eq_dec) (map (@nd_shape V) arrays)) as [|sh shs] eqn:Ef; [discriminate|]. injection H as <-.
    rewrite <- Edt in Hdt. rewrite <- Ef in Hsh.
    assert (Hdt' : forall a, In a arrays -> nd_dtype a = dt).
    { intros a Ha. apply (nodup_one Hdt); [now apply in_map|]. rewrite <- (nodup_In string_dec), Edt. now left. }
    assert (Hsh' : forall a, In a arrays -> nd_shape a = sh).
    { intros a Ha. apply (nodup_one Hsh); [now apply in_map|]. rewrite <- (nodup_In (list_eq_dec Nat.eq_dec)), Ef. now left. }
    unfold view_of, make_view. cbn [sv_data sv_n sv_mod_shape sv_dtype sv_fill sv_axis].
    split; [assumption|]. split; [intros a Ha; split; [auto|left; auto]|]. split; [rewrite Em; discriminate|]. split; [assumption|]. split.
    { intros m a. rewrite C5. split; [|tauto]. intros K. split; [assumption|]. apply Hsh'. eapply is_module_array; exact K. }
    split; [|auto]. intros m a K. split; [eauto|]. eapply max_le; [|exact Hmax]. apply (in_map fst) in K. exact K.
Qed.

Lemma view_core : forall (train : train_data) key axis modules fill shape dt,
  (forall dev keys, In (dev, keys) train -> exists m, find_module dev = Some m) ->
  (forall a, In a (arrays_of train key) -> nd_dtype a = dt /\ (nd_shape a = shape \/ empty_of shape (nd_shape a))) ->
  (exists m a, is_module train key m a /\ nd_shape a = shape) ->
  exists mods, (forall m a, In (m, a) mods <-> is_module train key m a /\ nd_shape a = shape) /\
    stack_detector_view train key axis modules fill =
      if (modules <=? fold_right Z.max 0 (map fst mods))%Z then Err EIndexError else Ok (make_view mods modules shape dt fill axis).
Proof.
  intros train key axis modules fill shape dt H1 H2 (m0 & a0 & Hm0 & Hs0). unfold stack_detector_view.
  destruct train as [|dev0 train0]; [destruct Hm0 as (b & ? & ? & ? & E & _); destruct b; discriminate|].
  set (train := dev0 :: train0) in *. assert (C := collect_spec train key).
  destruct (collect_modules train key) as [[mods arrays]|e]; [|exfalso; destruct C as (_ & dev & ks & I & E); destruct (H1 dev ks I); congruence].
  cbn [bind]. destruct C as (C1 & -> & C3 & C4 & C5). set (arrays := arrays_of train key) in *.
  assert (Ha0 : In a0 arrays) by (eapply is_module_array; exact Hm0).
  rewrite (@nodup_all_same _ string_dec (map (@nd_dtype V) arrays) dt).
  2: { destruct arrays; [destruct Ha0|discriminate]. }
  2: { intros y Hy. apply in_map_iff in Hy. destruct Hy as (a & <- & Ha). apply H2; assumption. }
  cbn [List.length Nat.ltb Nat.leb].
  set (D := nodup (list_eq_dec Nat.eq_dec) (map (@nd_shape V) arrays)).
  assert (HD : forall s, In s D -> s = shape \/ empty_of shape s).
  { intros s Hs. unfold D in Hs. rewrite nodup_In in Hs. apply in_map_iff in Hs. destruct Hs as (a & <- & Ha). apply H2; assumption. }
  assert (HsD : In shape D) by (unfold D; rewrite nodup_In; rewrite <- Hs0; now apply in_map).
  destruct (Exists_dec (fun s => s <> shape) D (fun s => match list_eq_dec Nat.eq_dec s shape with left e => right (fun n => n e) | right n => left n end)) as [Ex|Nx].
  - apply Exists_exists in Ex. destruct Ex as (s & Hs & Hne). destruct (HD _ Hs) as [->|[Esh Es]]; [contradiction|].
    destruct shape as [|d t]; [contradiction|]. simpl in Es. subst s.
    assert (Hd : (0 < d)%nat) by (destruct d; [contradiction|lia]).
    assert (L1 : nlist_leb (0%nat :: t) (d :: t) = true) by (simpl; destruct (Nat.ltb_spec 0 d); [reflexivity|lia]).
    assert (L2 : nlist_leb (d :: t) (0%nat :: t) = false) by (simpl; destruct (Nat.ltb_spec d 0); [lia|]; destruct (Nat.ltb_spec 0 d); [reflexivity|lia]).
    assert (HD2 : D = [0%nat :: t; d :: t] \/ D = [d :: t; 0%nat :: t]).
    { apply two_perm; [apply NoDup_nodup|congruence|assumption|assumption|]. intros z Hz. destruct (HD _ Hz) as [->|[_ ->]]; auto. }
    assert (Ei : isort nlist_leb D = [0%nat :: t; d :: t]).
    { destruct HD2 as [-> | ->]; unfold isort; cbn [fold_right insert_sorted]; [rewrite L1|rewrite L2]; reflexivity. }
    assert (El : List.length D = 2%nat) by (destruct HD2 as [-> | ->]; reflexivity). rewrite Ei, El. cbn [Nat.ltb Nat.leb Nat.eqb negb orb tl].
    rewrite (proj2 (nat_list_eqb_spec t t) eq_refl). cbn [negb orb bind].
    assert (Ef : filter (fun s => negb (nat_list_eqb s (0%nat :: t))) D = [d :: t]).
    { assert (F1 : nat_list_eqb (0%nat :: t) (0%nat :: t) = true) by now apply nat_list_eqb_spec.
      assert (F2 : nat_list_eqb (d :: t) (0%nat :: t) = false) by (apply not_true_iff_false; rewrite nat_list_eqb_spec; congruence).
      destruct HD2 as [-> | ->]; cbn [filter]; rewrite F1, F2; reflexivity. }
    rewrite Ef. set (mods' := filter (fun m => negb (nat_list_eqb (nd_shape (snd m)) (0%nat :: t))) mods).
    assert (M : forall m a, In (m, a) mods' <-> In (m, a) mods /\ nd_shape a <> 0%nat :: t) by (intros; apply filter_shape).
    assert (Hin : In (m0, a0) mods') by (apply M; split; [now apply C5|congruence]).
    exists mods'. split.
    { intros m a. rewrite M, C5. split; intros [K1 K2]; (split; [assumption|]); [|congruence].
      destruct (H2 a) as [_ [X|[_ X]]]; [eapply is_module_array; exact K1|assumption|contradiction]. }
    destruct mods' as [|x r]; [destruct Hin|]. reflexivity.
  - assert (HD1 : D = [shape]).
    { assert (N := NoDup_nodup (list_eq_dec Nat.eq_dec) (map (@nd_shape V) arrays)). fold D in N.
      assert (K : forall s, In s D -> s = shape).
      { intros s Hs. destruct (list_eq_dec Nat.eq_dec s shape) as [|Hn]; [assumption|]. exfalso. apply Nx. apply Exists_exists. eauto. }
      destruct D as [|a [|b r]]; [destruct HsD|rewrite (K a); [reflexivity|now left]|]. exfalso. inversion N as [|? ? N1 _]; subst. apply N1. left.
      rewrite (K a), (K b); simpl; auto. }
    rewrite HD1. cbn [List.length Nat.ltb Nat.leb bind].
    assert (Hin : In (m0, a0) mods) by now apply C5.
    exists mods. split.
    { intros m a. rewrite C5. split; [|tauto]. intros Hm. split; [assumption|].
      assert (X : In (nd_shape a) D) by (unfold D; rewrite nodup_In; apply in_map; eapply is_module_array; exact Hm).
      rewrite HD1 in X. destruct X as [X|[]]; congruence. }
    destruct mods as [|x r]; [destruct Hin|]. reflexivity.
Qed.
Lemma view_complete : forall (train : train_data) key axis modules fill shape dt,
  (forall dev keys, In (dev, keys) train -> exists m, find_module dev = Some m) ->
  (forall a, In a (arrays_of train key) -> nd_dtype a = dt /\ (nd_shape a = shape \/ empty_of shape (nd_shape a))) ->
  (exists m a, is_module train key m a /\ nd_shape a = shape) ->
  (forall m a, is_module train key m a -> nd_shape a = shape -> (m < modules)%Z) ->
  exists v, stack_detector_view train key axis modules fill = Ok v /\ sv_mod_shape v = shape /\ sv_dtype v = dt.
Proof.
  intros train key axis modules fill shape dt H1 H2 H3 H4. destruct (view_core axis modules fill H1 H2 H3) as (mods & Hm & E). rewrite E.
  destruct (Z.leb_spec modules (fold_right Z.max 0%Z (map fst mods))) as [K|_]; [exfalso|eexists; split; [reflexivity|split; reflexivity]].
  assert (fold_right Z.max 0%Z (map fst mods) < modules)%Z; [|lia]. apply max_lt_intro.
  - destruct H3 as (m & a & K1 & K2). assert (m < modules)%Z by eauto. assert (0 <= m)%Z; [|lia].
    destruct K1 as (b & dev & ks & af & _ & Ef & _). eapply find_module_nonneg; eassumption.
  - intros x Hx. apply in_map_iff in Hx. destruct Hx as ([m a] & <- & Hi). apply Hm in Hi. destruct Hi. eauto.
Qed.

Lemma stack_axis_norm : forall n axis k, stack_axis n axis k <->
  norm_axis n (if axis <? 0 then axis + Z.of_nat n else axis)%Z = Ok k.
Proof.
  intros n axis k. unfold stack_axis, norm_axis.
  destruct (Z.ltb_spec axis 0) as [Ha|Ha].
  - destruct (Z.ltb_spec (axis + Z.of_nat n) 0) as [Hb|Hb].
    + destruct (Z.leb_spec 0 (axis + Z.of_nat n + Z.of_nat n)); [|split; [lia|discriminate]].
      destruct (Z.ltb_spec (axis + Z.of_nat n + Z.of_nat n) (Z.of_nat n)); [|split; [lia|discriminate]]. cbn [andb].
      split; [intros [H1 H2]; f_equal; lia|intros E; injection E as <-; lia].
    + destruct (Z.leb_spec 0 (axis + Z.of_nat n)); [|split; [lia|discriminate]].
      destruct (Z.ltb_spec (axis + Z.of_nat n) (Z.of_nat n)); [|split; [lia|discriminate]]. cbn [andb].
      split; [intros [H1 H2]; f_equal; lia|intros E; injection E as <-; lia].
  - destruct (Z.ltb_spec axis 0); [lia|]. destruct (Z.leb_spec 0 axis); [|lia].
    destruct (Z.ltb_spec axis (Z.of_nat n)); [|split; [lia|discriminate]]. cbn [andb].
    split; [intros [K1 K2]; f_equal; lia|intros E; injection E as <-; lia].
Qed.
Lemma asarray_axis : forall (v : sview) r, asarray cast v = Ok r -> exists k, norm_axis (S (List.length (sv_mod_shape v))) (sv_axis v) = Ok k.
Proof.
  intros v r H. unfold asarray in H.
  destruct (foldM _ _ (sv_data v)) as [arr|] eqn:E; [|discriminate]. cbn [bind] in H.
  assert (Sh : nd_shape arr = Z.to_nat (sv_n v) :: sv_mod_shape v).
  { clear H. revert E. generalize (nd_full cast (Z.to_nat (sv_n v) :: sv_mod_shape v) (sv_fill v) (sv_dtype v)), (eq_refl : nd_shape (nd_full cast (Z.to_nat (sv_n v) :: sv_mod_shape v) (sv_fill v) (sv_dtype v)) = Z.to_nat (sv_n v) :: sv_mod_shape v).
    generalize (Z.to_nat (sv_n v) :: sv_mod_shape v). induction (sv_data v) as [|[m a] d IH]; intros sh x Hx E; cbn [foldM] in E; [congruence|].
    unfold nd_set0 at 1 in E. destruct (nd_shape x) as [|n s] eqn:Ex; [discriminate|]. cbn [fst snd] in E.
    destruct (py_index (seq 0 n) m); [|discriminate]. cbn [bind] in E. destruct (nat_list_eqb (nd_shape a) s); [|discriminate]. cbn [bind] in E.
    eapply IH; [|exact E]. simpl. congruence. }
  unfold moveaxis0, nd_ndim in H. rewrite Sh in H. cbn [List.length] in H. destruct (norm_axis (S (List.length (sv_mod_shape v))) (sv_axis v)) as [k|]; [eauto|discriminate].
Qed.

Lemma stack_accepts : forall (train : train_data) key axis modules fill,
  (exists r, stack_detector_data cast train key axis modules fill = Ok r) <->
  exists shape dt k, stackable train key axis modules shape dt k.
Proof.
  intros train key axis modules fill. unfold stack_detector_data. split.
  - intros (r & H). destruct (stack_detector_view train key axis modules fill) as [v|] eqn:E; [|discriminate]. cbn [bind] in H.
    apply view_sound in E. destruct E as (V1 & V2 & V3 & V4 & V5 & V6 & V7 & V8 & V9). destruct (asarray_axis H) as [k Hk].
    exists (sv_mod_shape v), (sv_dtype v), k. split; [assumption|]. split; [assumption|]. split.
    { destruct (sv_data v) as [|[m a] d] eqn:Ed; [contradiction|]. exists m, a. apply V5. now left. }
    split; [intros m a K1 K2; apply V6 with (a := a); apply V5; auto|]. apply stack_axis_norm. rewrite <- V9. assumption.
  - intros (shape & dt & k & H1 & H2 & H3 & H4 & H5). destruct (view_complete axis fill H1 H2 H3 H4) as (v & E & Es & Ed). rewrite E. cbn [bind].
    apply view_sound in E. destruct E as (V1 & V2 & V3 & V4 & V5 & V6 & V7 & V8 & V9).
    destruct (@asarray_ok V cast v k) as (r & Hr & _); [assumption| | |eauto].
    { intros m a K. split; [rewrite V7; eapply V6; exact K|]. apply V5 in K. tauto. }
    rewrite V9, Es. apply stack_axis_norm. assumption.
Qed.
Lemma stack_result : forall (train : train_data) key axis modules fill r shape dt k,
  stack_detector_data cast train key axis modules fill = Ok r -> stackable train key axis modules shape dt k ->
  nd_dtype r = dt /\ nd_shape r = insert_at k (Z.to_nat modules) shape /\
  forall m idx, (m < Z.to_nat modules)%nat -> in_range shape idx ->
    shown cast train key shape dt fill (Z.of_nat m) idx (nd_at r (insert_at k m idx)).
Proof.
  intros train key axis modules fill r shape dt k H (H1 & H2 & H3 & H4 & H5). unfold stack_detector_data in H.
  destruct (view_complete axis fill H1 H2 H3 H4) as (v & E & Es & Ed). rewrite E in H. cbn [bind] in H.
  apply view_sound in E. destruct E as (V1 & V2 & V3 & V4 & V5 & V6 & V7 & V8 & V9).
  destruct (@asarray_ok V cast v k) as (r' & Hr & R1 & R2 & R3); [assumption| | |].
  { intros m a K. split; [rewrite V7; eapply V6; exact K|]. apply V5 in K. tauto. }
  { rewrite V9, Es. apply stack_axis_norm. assumption. }
  assert (r' = r) by congruence. subst r'. split; [congruence|]. split; [congruence|]. intros m idx Hm Hi.
  rewrite R3. 2: { apply in_range_length in Hi. apply stack_axis_norm in H5. apply norm_axis_le in H5. lia. }
  unfold module_at. destruct (zd_get (Z.of_nat m) (sv_data v)) as [a|] eqn:Eg.
  - left. apply zd_get_in in Eg. apply V5 in Eg. exists a. rewrite Es in Eg. tauto.
  - right. split; [|congruence]. intros a K1 K2. apply zd_get_none in Eg. apply Eg. apply (in_map fst (sv_data v) (Z.of_nat m, a)). apply V5. rewrite Es. auto.
Qed.
Lemma nodup_two : forall A (dec : forall x y : A, {x = y} + {x <> y}) l, (List.length (nodup dec l) <= 2)%nat ->
  forall a b c, In a l -> In b l -> In c l -> a = b \/ b = c \/ a = c.
Proof.
  intros A dec l H a b c Ha Hb Hc. apply (nodup_In dec) in Ha, Hb, Hc. destruct (nodup dec l) as [|x [|y [|z r]]]; cbn [List.length In] in *; [tauto| | |lia].
  - destruct Ha as [<-|[]], Hb as [<-|[]]. now left.
  - destruct Ha as [<-|[<-|[]]], Hb as [<-|[<-|[]]], Hc as [<-|[<-|[]]]; auto.
Qed.
Lemma stack_three_shapes : forall (train : train_data) key axis modules fill a b c, In a (arrays_of train key) -> In b (arrays_of train key) -> In c (arrays_of train key) ->
  nd_shape a <> nd_shape b -> nd_shape b <> nd_shape c -> nd_shape a <> nd_shape c -> stack_detector_data cast train key axis modules fill = Err EValueError.
Proof.
  intros train key axis modules fill a b c Ha Hb Hc Nab Nbc Nac. unfold stack_detector_data, stack_detector_view. destruct train as [|d0 t0]; [destruct Ha|]. assert (C := collect_spec (d0 :: t0) key).
  destruct (collect_modules (d0 :: t0) key) as [[mods arrays]|e]; [|destruct C as [-> _]; reflexivity].
  destruct C as (_ & -> & _). cbn [bind].
  destruct (Nat.ltb 1 (List.length (nodup string_dec _))); [reflexivity|].
  set (shapes := nodup (list_eq_dec Nat.eq_dec) (map (@nd_shape V) (arrays_of (d0 :: t0) key))).
  assert (L : (2 < List.length shapes)%nat).
  { destruct (Nat.ltb_spec 2 (List.length shapes)) as [|L]; [assumption|exfalso].
    destruct (@nodup_two _ (list_eq_dec Nat.eq_dec) _ L (nd_shape a) (nd_shape b) (nd_shape c)) as [K|[K|K]]; try (now apply in_map); congruence. }
  replace (1 <? List.length shapes)%nat with true by (symmetry; apply Nat.ltb_lt; lia).
  replace (2 <? List.length shapes)%nat with true by (symmetry; apply Nat.ltb_lt; lia).
  assert (LS := Permutation_length (isort_perm nlist_leb shapes)).
  destruct (isort nlist_leb shapes) as [|s1 [|s2 r]]; cbn [List.length] in LS; try lia. reflexivity.
Qed.
Lemma stack_errors : forall (train : train_data) key axis modules fill,
  (train = [] -> stack_detector_data cast train key axis modules fill = Err EValueError) /\
  (forall dev ks, In (dev, ks) train -> find_module dev = None -> stack_detector_data cast train key axis modules fill = Err EValueError) /\
  (forall a b, In a (arrays_of train key) -> In b (arrays_of train key) -> nd_dtype a <> nd_dtype b ->
     stack_detector_data cast train key axis modules fill = Err EValueError) /\
  (forall shape dt, (forall dev keys, In (dev, keys) train -> exists m, find_module dev = Some m) ->
     (forall a, In a (arrays_of train key) -> nd_dtype a = dt /\ (nd_shape a = shape \/ empty_of shape (nd_shape a))) ->
     (exists m a, is_module train key m a /\ nd_shape a = shape /\ (modules <= m)%Z) ->
     stack_detector_data cast train key axis modules fill = Err EIndexError).
Proof.
  intros train key axis modules fill. unfold stack_detector_data. split; [|split; [|split]].
  - intros ->. reflexivity.
  - intros dev ks Hi Hf. unfold stack_detector_view. destruct train as [|d0 t0]; [destruct Hi|]. assert (C := collect_spec (d0 :: t0) key).
    destruct (collect_modules (d0 :: t0) key) as [[mods arrays]|e].
    + exfalso. destruct C as (C & _). destruct (C _ _ Hi). congruence.
    + destruct C as [-> _]. reflexivity.
  - intros a b Ha Hb Hne. unfold stack_detector_view. destruct train as [|d0 t0]; [destruct Ha|]. assert (C := collect_spec (d0 :: t0) key).
    destruct (collect_modules (d0 :: t0) key) as [[mods arrays]|e]; [|destruct C as [-> _]; reflexivity].
    destruct C as (_ & -> & _). cbn [bind].
    destruct (Nat.ltb_spec 1 (List.length (nodup string_dec (map (@nd_dtype V) (arrays_of (d0 :: t0) key))))) as [|Hl]; [reflexivity|].
    exfalso. apply Hne. apply (nodup_one Hl); now apply in_map.
  - intros shape dt H1 H2 (m & a & K1 & K2 & K3). destruct (view_core axis modules fill H1 H2) as (mods & Hm & E); [eauto|]. rewrite E.
    destruct (Z.leb_spec modules (fold_right Z.max 0%Z (map fst mods))) as [K|K]; [reflexivity|exfalso].
    assert (m < modules)%Z; [|lia]. eapply max_le; [|exact K]. apply (in_map fst mods (m, a)). apply Hm. auto.
Qed.
End S.
