(** Iterating over the trains of a detector: one key of one module. *)
From Verif Require Import Base PyStr M_Files M_Machinery M_Reader M_Glob M_Select M_Series M_Stacking M_Components
  S_Reader S_Coll S_Glob S_Select S_Avail S_Series S_Stacking S_Components
  L_Base L_Machinery L_Reader L_GetArray L_Select L_Trains L_SelTrains L_Array2 L_Sel2 L_Hist L_Series L_Writer5
  L_Components L_Components2 L_Components3 L_Components4 L_Components5 L_Components6 L_Components7 L_Components8 L_Components9.
Set Implicit Arguments. Unset Strict Implicit.
Local Open Scope string_scope.
Local Open Scope list_scope.

Lemma nonzero_from_S : forall l n, nonzero_from (S n) l = map S (nonzero_from n l).
Proof. induction l as [|b l IH]; intros n; simpl; [reflexivity|]. destruct b; simpl; now rewrite IH. Qed.
Lemma first_ge_cons : forall x p l, first_ge x (p :: l) = if (x <=? p)%Z then 0%Z else (1 + first_ge x l)%Z.
Proof.
  intros x p l. unfold first_ge, nonzero. cbn [map nonzero_from List.length]. destruct (x <=? p)%Z; [reflexivity|]. rewrite nonzero_from_S.
  destruct (nonzero_from 0 _) as [|i r]; cbn [map]; lia.
Qed.
Lemma first_ge_bounds : forall x l, (0 <= first_ge x l <= Z.of_nat (List.length l))%Z.
Proof.
  intros x; induction l as [|p l IH]; [unfold first_ge; simpl; lia|]. rewrite first_ge_cons. cbn [List.length]. destruct (x <=? p)%Z; lia.
Qed.
Lemma first_ge_all : forall x l, Forall (fun p => x <= p)%Z l -> first_ge x l = 0%Z.
Proof. intros x [|p l] H; [reflexivity|]. rewrite first_ge_cons. inversion H; subst. destruct (Z.leb_spec x p); lia. Qed.
Lemma zslice_cons_S : forall A (x : A) l i j, (0 <= i)%Z -> (0 <= j)%Z -> zslice (x :: l) (1 + i) (1 + j) = zslice l i j.
Proof.
  intros A x l i j Hi Hj. unfold zslice. replace (Z.to_nat (1 + i)) with (S (Z.to_nat i)) by lia. cbn [skipn]. replace (1 + j - (1 + i))%Z with (j - i)%Z by lia. reflexivity.
Qed.
Lemma zslice_first_ge : forall A (h : A -> Z) (l : list A) a b, StronglySorted Z.le (map h l) ->
  zslice l (first_ge a (map h l)) (first_ge b (map h l)) = filter (fun x => (a <=? h x) && (h x <? b))%Z l.
Proof.
  intros A h. induction l as [|x l IH]; intros a b HS; [unfold zslice; now rewrite skipn_nil, firstn_nil|].
  cbn [map] in *. inversion HS as [|? ? HS' Hx]; subst. rewrite !first_ge_cons. cbn [filter].
  pose proof (first_ge_bounds a (map h l)) as Ba. pose proof (first_ge_bounds b (map h l)) as Bb.
  assert (Empty : (b <= h x)%Z -> filter (fun x => (a <=? h x) && (h x <? b))%Z l = []).
  { intros Hb. rewrite Forall_map, Forall_forall in Hx. clear -Hx Hb. induction l as [|y l IH]; [reflexivity|]. simpl.
    assert (H := Hx y (or_introl eq_refl)). replace (h y <? b)%Z with false by lia. rewrite andb_false_r. apply IH. intros; apply Hx; now right. }
  destruct (Z.leb_spec a (h x)) as [Ha|Ha], (Z.leb_spec b (h x)) as [Hb|Hb]; cbn [andb].
  - replace (h x <? b)%Z with false by lia. rewrite (Empty Hb). reflexivity.
  - replace (h x <? b)%Z with true by lia. rewrite <- (IH a b HS').
    rewrite (first_ge_all (x := a) (l := map h l)) by (eapply Forall_impl; [|exact Hx]; simpl; intros; lia).
    unfold zslice. rewrite !Z.sub_0_r. replace (Z.to_nat (1 + first_ge b (map h l))) with (S (Z.to_nat (first_ge b (map h l)))) by lia. reflexivity.
  - rewrite (Empty Hb). unfold zslice. replace (Z.to_nat (0 - _)) with 0%nat by lia. reflexivity.
  - rewrite <- (IH a b HS'). apply zslice_cons_S; lia.
Qed.
Lemma zslice_zslice : forall A (l : list A) a b i j, (0 <= a)%Z -> (0 <= i)%Z -> (j <= b - a)%Z ->
  zslice l (a + i) (a + j) = zslice (zslice l a b) i j.
Proof.
  intros A l a b i j Ha Hi Hj. unfold zslice. rewrite skipn_firstn_comm, skipn_skipn, firstn_firstn.
  replace (Nat.min (Z.to_nat (j - i)) (Z.to_nat (b - a) - Z.to_nat i)) with (Z.to_nat (a + j - (a + i))) by lia.
  f_equal. f_equal. lia.
Qed.
Lemma pick_zslice : forall A (l : list A) a b js, (0 <= a)%Z -> Forall (fun j => 0 <= j < b - a)%Z js ->
  pick l (map (Z.add a) js) = pick (zslice l a b) js.
Proof.
  intros A l a b js Ha H. induction H as [|j js Hj H IH]; simpl; [reflexivity|].
  assert (E : nth_error (zslice l a b) (Z.to_nat j) = nth_error l (Z.to_nat (a + j))).
  { unfold zslice. rewrite nth_error_firstn. replace (Z.to_nat j <? Z.to_nat (b - a))%nat with true by (symmetry; apply Nat.ltb_lt; lia).
    rewrite nth_error_skipn. f_equal. lia. }
  rewrite E, IH. reflexivity.
Qed.
Lemma py_range_shift : forall c a b s, py_range (c + a) (c + b) s = map (Z.add c) (py_range a b s).
Proof.
  intros c a b s. unfold py_range, range_len. rewrite map_map.
  replace (c + a <? c + b)%Z with (a <? b)%Z by (destruct (Z.ltb_spec a b), (Z.ltb_spec (c + a) (c + b)); lia).
  replace (c + b <? c + a)%Z with (b <? a)%Z by (destruct (Z.ltb_spec b a), (Z.ltb_spec (c + b) (c + a)); lia).
  replace (c + b - (c + a))%Z with (b - a)%Z by lia. replace (c + a - (c + b))%Z with (a - b)%Z by lia.
  apply map_ext. intros; lia.
Qed.
Lemma py_range_none : forall a b s, (1 <= s)%Z -> (b <= a)%Z -> py_range a b s = [].
Proof. intros a b s Hs H. unfold py_range, range_len. replace (0 <? s)%Z with true by lia. replace (a <? b)%Z with false by lia. reflexivity. Qed.
(** l[a:b:s] with b inside. *)
Lemma py_slice_pick : forall A (l : list A) a b s, (0 <= a)%Z -> (0 <= b <= Z.of_nat (List.length l))%Z -> (1 <= s)%Z ->
  py_slice l (mk_slice (Some a) (Some b) (Some s)) = Ok (pick l (py_range a b s)).
Proof.
  intros A l a b s Ha Hb Hs. unfold py_slice, slice_indices. cbn [sl_start sl_stop sl_step].
  replace (s =? 0)%Z with false by lia. replace (s <? 0)%Z with false by lia. cbn [bind]. unfold slice_clip.
  replace (a <? 0)%Z with false by lia. replace (b <? 0)%Z with false by lia. rewrite (Z.min_l b) by lia. f_equal.
  destruct (Z.leb_spec a (Z.of_nat (List.length l))).
  - rewrite Z.min_l by lia. reflexivity.
  - rewrite Z.min_r by lia. rewrite !py_range_none by lia. reflexivity.
Qed.
Lemma py_range_min : forall a b c s, (1 <= s)%Z -> py_range a (Z.min b c) s = filter (fun i => i <? c)%Z (py_range a b s).
Proof.
  intros a b c s Hs. apply sorted_lt_ext.
  - pose proof (@py_range_sorted a (Z.min b c) s ltac:(lia)) as P. replace (0 <? s)%Z with true in P by lia. exact P.
  - apply SS_filter_gen. pose proof (@py_range_sorted a b s ltac:(lia)) as P. replace (0 <? s)%Z with true in P by lia. exact P.
  - intros x. rewrite filter_In, !py_range_In by lia. replace (0 <? s)%Z with true by lia. rewrite Z.ltb_lt. intuition lia.
Qed.

Section C.
Context {V : Type}.
Notation faccess := (faccess V).
Context (first : V -> V) (pulse : V -> Z) (h5_empty : bool).

(** by_id with a slice of step 1. *)
Definition id_slice (v : psel_val) : Prop := match v with PSlice _ _ 1%Z => True | _ => False end.
Definition it_positions (ps : psel) (ids : list Z) (count : Z) : positions :=
  if ps_by_id ps then it_select_pulse_ids (ps_val ps) ids else it_select_pulse_indices (ps_val ps) count.

Lemma it_selection : forall (ps : psel) (ds : dataset V) (rows : list (Z * V)) (e : entry) (R : list (Z * V)),
  R = zslice rows (e_first e) (e_first e + e_count e) -> Z.of_nat (List.length R) = e_count e ->
  zslice (ds_rows ds) (e_first e) (e_first e + e_count e) = map snd R -> (e_first e + e_count e <= Z.of_nat (List.length (ds_rows ds)))%Z ->
  (0 <= e_first e)%Z -> Forall (fun z => 0 <= z)%Z (desired (ps_val ps)) ->
  (match ps_val ps with PSlice a b s => 0 <= a /\ 0 <= b /\ 1 <= s | PList _ => True end)%Z ->
  Forall (fun p => 0 <= fst p < MAX_PULSES)%Z R -> (e_count e <= MAX_PULSES)%Z ->
  (ps_by_id ps = true -> id_slice (ps_val ps) -> StronglySorted Z.le (map fst R)) ->
  exists Rsel, map (pair (fst e)) Rsel = entry_sel ps rows e /\
    take_positions (map fst R) (it_positions ps (map fst R) (e_count e)) = Ok (map fst Rsel) /\
    (forall data, data_at ds (e_first e) (it_positions ps (map fst R) (e_count e)) h5_empty = Ok data ->
       data = map snd Rsel /\
       (ps_by_id ps = false -> is_all (ps_val ps) = false -> StronglySorted Z.lt (filter (fun i => i <? e_count e)%Z (desired (ps_val ps))))) /\
    ((h5_empty = true \/ Rsel <> []) ->
     (ps_by_id ps = false -> StronglySorted Z.lt (desired (ps_val ps))) ->
     exists data, data_at ds (e_first e) (it_positions ps (map fst R) (e_count e)) h5_empty = Ok data).
Proof.
  intros ps ds rows e R HR HL Hds Hfit H0 HD Hv HP HC Hsort.
  assert (Hrow : entry_rows rows e = map (pair (fst e)) R) by (unfold entry_rows; now rewrite <- HR).
  assert (Hc0 : (0 <= e_count e)%Z) by lia.
  unfold it_positions. destruct (ps_by_id ps) eqn:Eb.
  - (* pulse IDs *)
    assert (Sel : forall Rsel, Rsel = filter (fun x => z_in (fst x) (desired (ps_val ps))) R -> map (pair (fst e)) Rsel = entry_sel ps rows e).
    { intros Rsel ->. unfold entry_sel. rewrite Hrow, Eb.
      assert (F : filter (fun x => z_in (fst (snd x)) (desired (ps_val ps))) (map (pair (fst e)) R) = map (pair (fst e)) (filter (fun x => z_in (fst x) (desired (ps_val ps))) R)).
      { clear. induction R as [|x R IH]; simpl; [reflexivity|]. destruct (z_in (fst x) _); simpl; now rewrite IH. }
      destruct (is_all (ps_val ps)) eqn:EA; [|now rewrite F].
      f_equal. assert (Hall : forall x, In x R -> z_in (fst x) (desired (ps_val ps)) = true).
      { intros x Hx. apply z_in_iff. rewrite Forall_forall in HP. specialize (HP x Hx).
        destruct (ps_val ps) as [a b s|l]; [|discriminate]. simpl in EA. apply andb_true_iff in EA as [EA E3]. apply andb_true_iff in EA as [E1 E2].
        apply Z.eqb_eq in E1, E2, E3. subst. simpl desired. rewrite py_range_In by lia. simpl. split; [lia|]. exists (fst x). lia. }
      clear -Hall. induction R as [|x R IH]; simpl; [reflexivity|]. rewrite (Hall x (or_introl eq_refl)). f_equal. apply IH. intros; apply Hall; now right. }
    assert (Other : let pos := PosList (map Z.of_nat (nonzero (np_isin (map fst R) (desired (ps_val ps))))) in
      exists Rsel, map (pair (fst e)) Rsel = entry_sel ps rows e /\ take_positions (map fst R) pos = Ok (map fst Rsel) /\
       (forall data, data_at ds (e_first e) pos h5_empty = Ok data -> data = map snd Rsel /\
         (true = false -> is_all (ps_val ps) = false -> StronglySorted Z.lt (filter (fun i => i <? e_count e)%Z (desired (ps_val ps))))) /\
       ((h5_empty = true \/ Rsel <> []) -> (true = false -> StronglySorted Z.lt (desired (ps_val ps))) -> exists data, data_at ds (e_first e) pos h5_empty = Ok data)).
    { cbv zeta. exists (filter (fun x => z_in (fst x) (desired (ps_val ps))) R). split; [now apply Sel|].
      unfold np_isin. rewrite map_map. set (js := map Z.of_nat (nonzero (map (fun x => z_in (fst x) (desired (ps_val ps))) R))).
      assert (HI : Forall (inside R) js) by now apply nonzero_inside.
      assert (HIs : Forall (inside (map snd R)) js) by (eapply inside_len; [|exact HI]; now rewrite map_length).
      assert (HIf : Forall (inside (map fst R)) js) by (eapply inside_len; [|exact HI]; now rewrite map_length).
      assert (Pk : pick R js = filter (fun x => z_in (fst x) (desired (ps_val ps))) R) by apply pick_nonzero.
      assert (Inc : increasing (map (Z.add (e_first e)) js) = true).
      { rewrite increasing_shift. apply increasing_iff. apply (SS_map (R := lt)); [intros; lia|]. apply nonzero_from_sorted. }
      assert (Dat : js <> [] -> data_at ds (e_first e) (PosList js) h5_empty = Ok (map snd (pick R js))).
      { intros Hne. cbn [data_at]. destruct js as [|j0 js']; [congruence|]. unfold h5_rows. rewrite Inc. cbn [negb].
        rewrite (@mapM_h5_rows _ (ds_rows ds) (e_first e) (e_first e + e_count e)); [|assumption|rewrite Hds; assumption].
        rewrite Hds. now rewrite pick_map. }
      split; [|split].
      - cbn [take_positions]. rewrite mapM_py_index by assumption. now rewrite pick_map, Pk.
      - intros data Hdat. split; [|discriminate]. rewrite <- Pk. destruct js as [|j0 js'] eqn:Ej.
        + cbn [data_at] in Hdat. destruct h5_empty; [|discriminate]. injection Hdat as <-. reflexivity.
        + rewrite Dat in Hdat by discriminate. now injection Hdat as <-.
      - intros Hne _. destruct js as [|j0 js'] eqn:Ej.
        + cbn [data_at]. destruct Hne as [->|Hne]; [eauto|]. exfalso. apply Hne. now rewrite <- Pk.
        + rewrite Dat by discriminate. eauto. }
    unfold it_select_pulse_ids. destruct (ps_val ps) as [a b s|l] eqn:Ev; [|exact Other].
    destruct (Z.eq_dec s 1) as [->|Hs]; [|destruct s as [|[p|p|]|p]; try exact Other; congruence].
    cbv iota. clear Other. specialize (Hsort eq_refl I).
    set (i := first_ge a (map fst R)). set (j := first_ge b (map fst R)).
    pose proof (first_ge_bounds a (map fst R)) as Bi. fold i in Bi. pose proof (first_ge_bounds b (map fst R)) as Bj. fold j in Bj.
    rewrite map_length in Bi, Bj. destruct Hv as (V1 & V2 & V3).
    exists (zslice R i j).
    assert (Ez : zslice R i j = filter (fun x => z_in (fst x) (desired (PSlice a b 1))) R).
    { unfold i, j. rewrite zslice_first_ge by assumption. apply filter_ext. intros x. simpl desired.
      destruct (z_in (fst x) (py_range a b 1)) eqn:E.
      - apply z_in_iff in E. apply py_range_In in E; [|lia]. simpl in E. destruct E as (E1 & q & E2 & E3). lia.
      - apply z_in_false in E. destruct (_ && _) eqn:E2; [|reflexivity]. exfalso. apply E. apply py_range_In; [lia|]. simpl.
        apply andb_true_iff in E2. split; [lia|]. exists (fst x - a)%Z. lia. }
    split; [now apply Sel|].
    assert (T : zslice (map fst R) i j = map fst (zslice R i j)) by (unfold zslice; now rewrite <- firstn_map, <- skipn_map).
    assert (D : data_at ds (e_first e) (PosSlice i j 1) h5_empty = Ok (map snd (zslice R i j))).
    { cbn [data_at]. rewrite py_slice_zslice by lia. f_equal. rewrite (@zslice_zslice _ (ds_rows ds) (e_first e) (e_first e + e_count e)) by lia.
      rewrite Hds. unfold zslice. now rewrite <- firstn_map, <- skipn_map. }
    split; [cbn [take_positions]; rewrite py_slice_zslice by lia; now rewrite T|]. rewrite D. split.
    + intros data H. injection H as <-. split; [reflexivity|discriminate].
    + eauto.
  - (* positions *)
    assert (HI : Forall (inside R) (filter (fun i => i <? e_count e)%Z (desired (ps_val ps)))).
    { apply Forall_forall. intros x Hx. apply filter_In in Hx as [Hx Hx2]. rewrite Forall_forall in HD. specialize (HD x Hx). unfold inside. lia. }
    assert (Sel : is_all (ps_val ps) = false -> map (pair (fst e)) (pick R (filter (fun i => i <? e_count e)%Z (desired (ps_val ps)))) = entry_sel ps rows e).
    { intros EA. unfold entry_sel. rewrite Hrow, Eb, EA. now rewrite pick_map. }
    unfold it_select_pulse_indices. destruct (ps_val ps) as [a b s|l] eqn:Ev.
    + destruct Hv as (V1 & V2 & V3). set (js := filter (fun i => i <? e_count e)%Z (desired (PSlice a b s))) in *.
      assert (Hjs : py_range a (Z.min b (e_count e)) s = js) by (apply py_range_min; lia).
      assert (HS : StronglySorted Z.lt js).
      { apply SS_filter_gen. pose proof (@py_range_sorted a b s ltac:(lia)) as P. replace (0 <? s)%Z with true in P by lia. exact P. }
      exists (pick R js). split; [|split; [|split]].
      * destruct (is_all (PSlice a b s)) eqn:EA; [|now apply Sel]. unfold entry_sel. rewrite Ev, EA, Hrow. f_equal.
        simpl in EA. apply andb_true_iff in EA as [EA E3]. apply andb_true_iff in EA as [E1 E2]. apply Z.eqb_eq in E1, E2, E3. subst a b s.
        rewrite <- Hjs, Z.min_r by lia. unfold py_range, range_len. replace (0 <? 1)%Z with true by reflexivity. cbv iota.
        destruct (Z.ltb_spec 0 (e_count e)).
        -- rewrite Z.sub_0_r. replace ((e_count e + 1 - 1) / 1)%Z with (e_count e) by (rewrite Z.div_1_r; lia).
           replace (Z.to_nat (e_count e)) with (List.length R) by lia.
           rewrite (pick_range (l := R) (a := 0%Z) (n := List.length R)) by (simpl; lia). simpl. apply firstn_all.
        -- simpl. destruct R; [reflexivity|simpl in HL; lia].
      * cbn [take_positions]. rewrite py_slice_pick by (rewrite ?map_length; lia). rewrite Hjs. now rewrite pick_map.
      * intros data Hdat. split; [|intros _ _; exact HS]. cbn [data_at] in Hdat. rewrite py_slice_pick in Hdat by lia. injection Hdat as <-.
        rewrite py_range_shift, Hjs. rewrite (@pick_zslice _ (ds_rows ds) (e_first e) (e_first e + e_count e)).
        -- rewrite Hds. now rewrite pick_map.
        -- assumption.
        -- rewrite Forall_forall in HI |- *. intros x Hx. specialize (HI x Hx). unfold inside in HI. lia.
      * intros _ _. cbn [data_at]. rewrite py_slice_pick by lia. eauto.
    + simpl desired in *. set (js := filter (fun i => i <? e_count e)%Z l) in *. exists (pick R js). split; [now apply Sel|].
      assert (HIs : Forall (inside (map snd R)) js) by (eapply inside_len; [|exact HI]; now rewrite map_length).
      assert (HIf : Forall (inside (map fst R)) js) by (eapply inside_len; [|exact HI]; now rewrite map_length).
      split; [cbn [take_positions]; rewrite mapM_py_index by assumption; now rewrite pick_map|].
      assert (Dat : js <> [] -> data_at ds (e_first e) (PosList js) h5_empty = if increasing js then Ok (map snd (pick R js)) else Err ETypeError).
      { intros Hne. cbn [data_at]. destruct js as [|j0 js']; [congruence|]. unfold h5_rows. rewrite increasing_shift.
        destruct (increasing (j0 :: js')); [|reflexivity]. cbn [negb].
        rewrite (@mapM_h5_rows _ (ds_rows ds) (e_first e) (e_first e + e_count e)); [|assumption|rewrite Hds; assumption].
        rewrite Hds. now rewrite pick_map. }
      split.
      * intros data Hdat. destruct js as [|j0 js'] eqn:Ej.
        -- cbn [data_at] in Hdat. destruct h5_empty; [|discriminate]. injection Hdat as <-. split; [reflexivity|]. intros _ _. constructor.
        -- rewrite Dat in Hdat by discriminate. destruct (increasing (j0 :: js')) eqn:Ei; [|discriminate]. injection Hdat as <-.
           split; [reflexivity|]. intros _ _. now apply increasing_iff.
      * intros Hne HS. destruct js as [|j0 js'] eqn:Ej.
        -- cbn [data_at]. destruct Hne as [->|Hne]; [eauto|]. exfalso. now apply Hne.
        -- rewrite Dat by discriminate. rewrite (proj2 (increasing_iff (j0 :: js'))); [eauto|]. rewrite <- Ej. apply SS_filter_gen. auto.
Qed.
End C.
