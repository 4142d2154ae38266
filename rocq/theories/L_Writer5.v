(** When writing succeeds; virtual datasets. *)
From Verif Require Import Base PyStr M_Files M_Machinery M_Reader M_Select M_Writer S_Reader S_Coll S_Avail S_Open S_Writer
  L_Base L_Machinery L_Reader L_GetArray L_Select L_Array2 L_Trains L_Sel2 L_Sel3 L_Hist L_Union L_Open L_Series L_Writer L_Writer2 L_Writer3 L_Writer4.
Set Implicit Arguments.
Unset Strict Implicit.
Local Open Scope string_scope.
Local Open Scope list_scope.

Lemma starts_with_app : forall p s, starts_with p s = true -> exists r, s = (p ++ r)%string.
Proof.
  induction p as [|a p IH]; intros s H; [exists s; reflexivity|]. destruct s as [|b s]; [discriminate|].
  simpl in H. apply andb_true_iff in H as [E H]. apply Ascii.eqb_eq in E. subst b. destruct (IH s H) as [r ->]. exists r. reflexivity.
Qed.
Lemma dts_app : forall a b, dots_to_slashes (a ++ b)%string = (dots_to_slashes a ++ dots_to_slashes b)%string.
Proof. induction a as [|c a IH]; intros b; simpl; [reflexivity|]. now rewrite IH. Qed.
Lemma repl_app : forall c c' a b, py_replace c c' (a ++ b)%string = (py_replace c c' a ++ py_replace c c' b)%string.
Proof. intros c c'. induction a as [|x a IH]; intros b; simpl; [reflexivity|]. now rewrite IH. Qed.

Section W.
Context {V : Type}.
Notation faccess := (faccess V).
Notation dcoll := (dcoll V).
Notation larray := (larray V).
Notation wstate := (wstate V).
Notation reader := (dcoll -> bool -> string -> string -> res (option larray)).

Lemma sources_nodup : forall d : dcoll, reachable d -> NoDup (dc_ctrl d) /\ NoDup (dc_inst d).
Proof.
  assert (G : forall files sel tids (d : dcoll), mk_collection files sel tids = Ok d -> NoDup (dc_ctrl d) /\ NoDup (dc_inst d)).
  { intros files sel tids d H. unfold mk_collection in H. apply bind_ok in H as ([] & _ & H). injection H as <-. cbn [dc_ctrl dc_inst].
    assert (F : forall (g : faccess -> list string) l acc, NoDup acc -> NoDup (fold_left (fun acc f => set_union acc (g f)) l acc)).
    { intros g. induction l as [|x l IH]; intros acc Ha; [exact Ha|]. simpl. apply IH. now apply set_union_NoDup. }
    split; apply F; constructor. }
  intros d H. destruct H as [files d Hf H|d a d' H Hs|d a d' H Hs|d tr d' H Hs|d ds d' H Hds Hu].
  - eapply G; exact H.
  - unfold select in Hs. apply bind_ok in Hs as (sel & _ & Hs). eapply G; exact Hs.
  - unfold deselect in Hs. apply bind_ok in Hs as (sel & _ & Hs). apply bind_ok in Hs as (l & _ & Hs). eapply G; exact Hs.
  - unfold select_trains in Hs. apply bind_ok in Hs as (tids & E & Hs). eapply G; exact Hs.
  - destruct Hu as (files & _ & Hu). symmetry in Hu. unfold union_in_order in Hu. eapply G; exact Hu.
Qed.

(** All the fields in the order of writing. *)
Lemma write_sources_run : forall (read : reader) (d : dcoll) c ss,
  (forall s, In s ss -> exists ks, keys_for_source d s = Ok ks) -> NoDup ss ->
  (forall s ks, keys_for_source d s = Ok ks -> NoDup ks) ->
  exists l, (forall ws, write_sources read d c ss ws = foldM (add_field read d) ws l) /\ NoDup l /\
    forall c' s k, In (c', s, k) l <-> c' = c /\ In s ss /\ exists ks, keys_for_source d s = Ok ks /\ In k ks.
Proof.
  intros read d c. induction ss as [|s ss IH]; intros Hks HN HNk.
  - exists []. split; [reflexivity|]. split; [constructor|]. intros c' s k. split; [intros []|intros (_ & [] & _)].
  - inversion HN as [|? ? M1 M2]; subst. destruct (Hks s) as [ks Es]; [now left|].
    destruct IH as (l & E & HNl & Hl); [intros; apply Hks; now right|assumption|assumption|].
    exists (map (fun k => (c, s, k)) ks ++ l). split; [|split].
    + intros ws. unfold write_sources. cbn [foldM]. rewrite Es. cbn [bind]. rewrite foldM_app, foldM_map.
      destruct (foldM _ ws ks); [cbn [bind]; apply E|reflexivity].
    + apply NoDup_app_intro; [|exact HNl|].
      * apply FinFun.Injective_map_NoDup; [intros x y Exy; now injection Exy|]. eapply HNk; exact Es.
      * intros [[c' s'] k'] H1 H2. apply in_map_iff in H1 as (k0 & Ek & _). injection Ek as <- <- <-. apply Hl in H2 as (_ & H2 & _). contradiction.
    + intros c' s' k. rewrite in_app_iff, in_map_iff, Hl. split.
      * intros [(k' & Ek & Hk)|(-> & H & Hk)]; [injection Ek as <- <- <-|].
        -- split; [reflexivity|]. split; [now left|]. eauto.
        -- split; [reflexivity|]. split; [now right|assumption].
      * intros (-> & [<-|Hs] & ks' & Ek & Hk); [left|right; eauto 6]. rewrite Es in Ek. injection Ek as <-. eauto.
Qed.

Lemma slash_cut : forall x y u v, (x ++ "/" ++ u)%string = (y ++ "/" ++ v)%string ->
  (x = y /\ u = v) \/ (exists r, y = (x ++ "/" ++ r)%string) \/ (exists r, x = (y ++ "/" ++ r)%string).
Proof.
  induction x as [|ch x IH]; intros [|ch' y] u v E0.
  - left. simpl in E0. injection E0 as E0. auto.
  - right. left. simpl in E0. injection E0 as <- E0. exists y. reflexivity.
  - right. right. simpl in E0. injection E0 as -> E0. exists x. reflexivity.
  - simpl in E0. injection E0 as <- E0. destruct (IH y u v E0) as [[-> ->]|[[r ->]|[r ->]]]; [now left|right; left; now exists r|right; right; now exists r].
Qed.

Lemma fields_no_clash : forall (d : dcoll) x y, reachable d -> distinct_kinds d -> plain_names d -> no_nesting d -> separate_keys d ->
  selected_field d x -> selected_field d y -> x <> y -> path_clash (ds_name x) (ds_name y) = false.
Proof.
  intros d x y Hr Hk Hp Hn Hs Hx Hy Hxy.
  assert (K : forall x y, selected_field d x -> selected_field d y -> x <> y -> forall r, ds_name y = (ds_name x ++ "/" ++ r)%string -> False).
  { clear x y Hx Hy Hxy. intros [[c s] k] [[c' s'] k'] Hx Hy Hxy r E. apply selected_available in Hx as [Ax Ex]; auto. apply selected_available in Hy as [Ay Ey]; auto.
    cbn [ds_name] in E. unfold data_key in E. rewrite !append_assoc_s in E.
    assert (E2 : c' = c /\ (s' ++ "/" ++ dots_to_slashes k')%string = (s ++ "/" ++ (dots_to_slashes k ++ "/" ++ r))%string).
    { destruct c, c'; simpl in E; try discriminate; injection E as E; rewrite ?append_assoc_s in *; auto. }
    destruct E2 as [<- E2]. destruct (slash_cut E2) as [[<- E3]|[[q Eq]|[q Eq]]].
    - apply (proj2 Hs s' k k' (py_replace slash dot r) Ax Ay). apply (f_equal (py_replace slash dot)) in E3. rewrite !repl_app in E3.
      rewrite <- !replace_dots, !back_replace in E3 by (eapply (proj1 Hp); eassumption). exact E3.
    - exact (Hn _ _ _ (proj1 Ay) (proj1 Ax) Eq).
    - exact (Hn _ _ _ (proj1 Ax) (proj1 Ay) Eq). }
  unfold path_clash. destruct (String.eqb_spec (ds_name x) (ds_name y)) as [E|_]; [exfalso|].
  - destruct x as [[c s] k]. destruct y as [[c' s'] k'].
    assert (Hx' := Hx). assert (Hy' := Hy). apply selected_available in Hx' as [Ax Ex]; auto. apply selected_available in Hy' as [Ay Ey]; auto.
    cbn [ds_name] in E. unfold data_key in E.
    assert (E2 : c' = c /\ (s' ++ "/" ++ dots_to_slashes k')%string = (s ++ "/" ++ dots_to_slashes k)%string).
    { destruct c, c'; simpl in E; try discriminate; injection E as E; auto. }
    destruct E2 as [<- E2]. destruct (slash_cut E2) as [[<- E3]|[[q Eq]|[q Eq]]].
    + apply Hxy. apply (f_equal (py_replace slash dot)) in E3.
      rewrite <- !replace_dots, !back_replace in E3 by (eapply (proj1 Hp); eassumption). congruence.
    + exact (Hn _ _ _ (proj1 Ay) (proj1 Ax) Eq).
    + exact (Hn _ _ _ (proj1 Ax) (proj1 Ay) Eq).
  - cbn [orb]. apply orb_false_iff. split.
    + destruct (starts_with _ _) eqn:E; [exfalso|reflexivity]. apply starts_with_app in E as [r E]. rewrite append_assoc_s in E. exact (K x y Hx Hy Hxy r E).
    + destruct (starts_with _ _) eqn:E; [exfalso|reflexivity]. apply starts_with_app in E as [r E]. rewrite append_assoc_s in E. exact (K y x Hy Hx (fun e => Hxy (eq_sym e)) r E).
Qed.

(** The loop: every field is added, or the first failing read stops it. *)
Lemma write_loop : forall (read : reader) (d : dcoll) (e : exn) l done ws,
  NoDup l -> winv d done ws -> (forall x a, In (x, a) done -> selected_field d x /\ ~ In x l) ->
  (forall x, In x l -> selected_field d x) ->
  (forall x y, selected_field d x -> selected_field d y -> x <> y -> path_clash (ds_name x) (ds_name y) = false) ->
  (forall c s k, In (c, s, k) l -> read d c s k = Err e \/ exists o, read d c s k = Ok o /\ forall a, o = Some a -> c = true -> NoDup (la_labels a)) ->
  (exists ws', foldM (add_field read d) ws l = Ok ws') /\ (forall c s k, In (c, s, k) l -> read d c s k <> Err e) \/
  foldM (add_field read d) ws l = Err e /\ (exists c s k, In (c, s, k) l /\ read d c s k = Err e).
Proof.
  intros read d e. induction l as [|[[c s] k] l IH]; intros done ws HN Hw Hd Hsel Hclash Hread.
  - left. split; [eexists; reflexivity|]. intros ? ? ? [].
  - inversion HN as [|? ? N1 N2]; subst. cbn [foldM]. destruct (Hread c s k) as [E|(o & E & Ho)]; [now left| |].
    + right. unfold add_field. rewrite E. split; [reflexivity|]. exists c, s, k. split; [now left|exact E].
    + assert (St : exists ws1 done1, add_field read d ws (c, s, k) = Ok ws1 /\ winv d done1 ws1 /\
         (forall x a, In (x, a) done1 -> selected_field d x /\ ~ In x l)).
      { unfold add_field. rewrite E. cbn [bind]. destruct o as [a|].
        - assert (A : exists ws1, add_dataset d c s k (Some a) ws = Ok ws1).
          { rewrite add_dataset_unfold. unfold put_data.
            assert (Hnc : existsb (fun p => path_clash (data_key c s k) (fst p)) (ws_data ws) = false).
            { destruct (existsb _ _) eqn:Ee; [exfalso|reflexivity]. apply existsb_exists in Ee as (p & Hp & Ee).
              destruct Hw as (I1 & _). rewrite I1 in Hp. apply in_map_iff in Hp as ([y b] & <- & Hy). cbn [fst snd] in Ee.
              destruct (Hd _ _ Hy) as [Sy Ny]. change (data_key c s k) with (ds_name (c, s, k)) in Ee.
              rewrite Hclash in Ee; [discriminate|apply Hsel; now left|exact Sy|]. intros <-. apply Ny. now left. }
            rewrite Hnc. cbn [bind]. unfold put_index. cbn [ws_index]. destruct (str_in _ _); [eauto|].
            unfold ix_made. cbn [fst]. destruct c.
            - destruct (control_index_ok (dc_tids d) (Ho a eq_refl eq_refl)) as [v ->]. cbn [bind]. eauto.
            - rewrite generate_index_counts. cbn [bind]. eauto. }
          destruct A as [ws1 A]. exists ws1, (done ++ [((c, s, k), a)]). split; [exact A|]. split; [exact (winv_step Hw A)|].
          intros x b Hx. apply in_app_or in Hx as [Hx|[Hx|[]]].
          + destruct (Hd _ _ Hx) as [S1 S2]. split; [exact S1|]. intros Hin. apply S2. now right.
          + injection Hx as <- <-. split; [apply Hsel; now left|exact N1].
        - exists ws, done. split; [reflexivity|]. split; [exact Hw|]. intros x b Hx. destruct (Hd _ _ Hx) as [S1 S2]. split; [exact S1|].
          intros Hin. apply S2. now right. }
      destruct St as (ws1 & done1 & -> & Hw1 & Hd1). cbn [bind].
      destruct (IH done1 ws1 N2 Hw1 Hd1) as [[A B]|[A (c1 & s1 & k1 & B1 & B2)]]; [intros; apply Hsel; now right|exact Hclash|intros; apply Hread; now right| |].
      * left. split; [exact A|]. intros c1 s1 k1 [Ex|Hin]; [injection Ex as <- <- <-; congruence|]. now apply B.
      * right. split; [exact A|]. exists c1, s1, k1. split; [now right|exact B2].
Qed.

Theorem write_total : forall (read : reader) name (d : dcoll) e, reachable d -> distinct_kinds d -> plain_names d -> no_nesting d -> separate_keys d ->
  (forall s k, available d s k -> read d (is_control d s) s k = Err e \/
     exists o, read d (is_control d s) s k = Ok o /\ forall a, o = Some a -> is_control d s = true -> NoDup (la_labels a)) ->
  (exists f, write_with read name d = Ok f) /\ (forall s k, available d s k -> read d (is_control d s) s k <> Err e) \/
  write_with read name d = Err e /\ (exists s k, available d s k /\ read d (is_control d s) s k = Err e).
Proof.
  intros read name d e Hr Hk Hp Hn Hs Hread. destruct (sources_nodup Hr) as [N1 N2]. destruct (reachable_inv Hr) as [Hb _].
  assert (Hks : forall s, In s (dc_sources d) -> exists ks, keys_for_source d s = Ok ks) by (intros s Hin; exact (keys_for_source_ok Hb Hin)).
  destruct (@write_sources_run read d true (dc_ctrl d)) as (l1 & E1 & M1 & L1); [intros s Hin; apply Hks, set_union_In; now left|exact N1|apply Hs|].
  destruct (@write_sources_run read d false (dc_inst d)) as (l2 & E2 & M2 & L2); [intros s Hin; apply Hks, set_union_In; now right|exact N2|apply Hs|].
  assert (HL : forall x, In x (l1 ++ l2) <-> selected_field d x).
  { intros [[c s] k]. rewrite in_app_iff, L1, L2. unfold selected_field. destruct c; intuition discriminate. }
  assert (HN : NoDup (l1 ++ l2)).
  { apply NoDup_app_intro; [exact M1|exact M2|]. intros [[c s] k] H1 H2. apply L1 in H1 as [H1 _]. apply L2 in H2 as [H2 _]. congruence. }
  assert (EW : write_with read name d = let* ws := foldM (add_field read d) ws0 (l1 ++ l2) in Ok (ws_file name d ws)).
  { unfold write_with. rewrite E1, foldM_app. destruct (foldM (add_field read d) ws0 l1); [cbn [bind]; now rewrite E2|reflexivity]. }
  destruct (@write_loop read d e (l1 ++ l2) [] ws0 HN (winv0 d)) as [[[ws A] B]|[A (c & s & k & B1 & B2)]].
  - intros x a [].
  - intros x Hx. now apply HL.
  - intros x y Hx Hy Hxy. now apply (@fields_no_clash d).
  - intros c s k Hin. apply HL in Hin. apply selected_available in Hin as [Ha ->]; auto.
  - left. rewrite EW, A. split; [eexists; reflexivity|]. intros s k Ha. apply B. apply HL. apply selected_available; auto.
  - right. rewrite EW, A. split; [reflexivity|]. apply HL in B1. apply selected_available in B1 as [Ha ->]; auto. eauto.
Qed.

(** Labels of control data. *)
Lemma count_le1_nodup : forall l, (forall t, count_tid l t <= 1)%Z -> NoDup l.
Proof.
  induction l as [|x l IH]; intros H; constructor.
  - intros Hin. specialize (H x). rewrite count_tid_cons, Z.eqb_refl in H. assert (0 < count_tid l x)%Z; [|lia].
    clear -Hin. unfold count_tid. assert (Hx : In x (filter (fun y => (x =? y)%Z) l)) by (apply filter_In; split; [exact Hin|apply Z.eqb_refl]).
    destruct (filter _ l); [destruct Hx|simpl; lia].
  - apply IH. intros t. specialize (H t). rewrite count_tid_cons in H. destruct (t =? x)%Z; lia.
Qed.
Lemma count_pos_In : forall l t, (0 < count_tid l t)%Z <-> In t l.
Proof.
  intros l t. unfold count_tid. split.
  - intros H. destruct (filter (fun y => (t =? y)%Z) l) as [|y r] eqn:E; [simpl in H; lia|].
    assert (Hy : In y (filter (fun y => (t =? y)%Z) l)) by (rewrite E; now left). apply filter_In in Hy as [Hy Ey]. apply Z.eqb_eq in Ey. now subst.
  - intros Hin. assert (Hx : In t (filter (fun y => (t =? y)%Z) l)) by (apply filter_In; split; [exact Hin|apply Z.eqb_refl]).
    destruct (filter _ l); [destruct Hx|simpl; lia].
Qed.

Lemma control_labels : forall (d : dcoll) s k a, reachable d -> good_collection d -> available d s k -> good_index d s k -> is_control d s = true ->
  get_array d s k = Ok a ->
  NoDup (la_labels a) /\ (forall t, In t (la_labels a) <-> In t (dc_tids d) /\ exists f, holds d f s t).
Proof.
  intros d s k a Hr Hg (Hs & ks & Hks & Hin) Hi Hc Ha. destruct Hg as (Hk & Hgf & Hgc & Hgd). destruct (reachable_inv Hr) as [Hb Ho].
  destruct (@get_array_correct V d s k a Hr Hk Hgf Hi Ha) as [A1 A2]. pose proof (get_array_lengths Ha) as Hl.
  assert (Hcs : In s (dc_ctrl d)) by (apply str_in_iff; exact Hc).
  assert (One : forall t f, In t (dc_tids d) -> holds d f s t -> count_tid (la_labels a) t = 1%Z).
  { intros t f Ht (F1 & F2 & F3). rewrite (count_rows_labelled t Hl).
    destruct (A1 f t F1 F2 F3 Ht) as (raw & p & g & first & count & ds & R1 & R2 & R3 & R4 & R5 & R6 & R7 & E). rewrite E. clear E.
    destruct (Hgd s k ks Hs Hks Hin) as [_ (dt & it & Hd)]. destruct (Hd f F1 F2) as (ds' & g' & D1 & _ & _ & D2 & D3).
    unfold is_control in Hc. assert (ds' = ds) by congruence. assert (g' = g) by congruence. subst ds' g'.
    assert (Hfc : In s (fa_ctrl f)).
    { apply fa_sources_In in F2 as [F2|F2]; [exact F2|]. exfalso. destruct (proj1 (proj1 (proj2 Hb) s) Hcs) as (f0 & H0 & H0c & _).
      exact (Hk f0 f s H0 F1 H0c F2). }
    rewrite Hc in R4. cbn [index_key] in R4. assert (Hci := Hgc s Hcs f g F1 Hfc R4).
    assert (Hp : (p < List.length (fa_tids f))%nat).
    { rewrite Forall_forall in Ho. unfold good_files in Hgf. rewrite Forall_forall in Hgf.
      destruct (opened_tids (Ho f F1) (Hgf f F1)) as (pad & E & _).
      apply In_nth_error in F3 as [q Hq]. assert (Hlt := nth_error_Some_lt _ _ Hq). destruct (Nat.lt_ge_cases p (List.length (fa_tids f))) as [L|L]; [exact L|exfalso].
      apply (R3 q); [lia|]. rewrite R1 in E. injection E as ->. rewrite nth_error_app1 by exact Hlt. exact Hq. }
    destruct (Hci p Hp) as [C1 C2]. assert (first = Z.of_nat p) by congruence. assert (count = 1%Z) by congruence. subst first count.
    specialize (D3 p _ _ Hp R5 R6). rewrite firstn_length, skipn_length. rewrite Nat2Z.id. lia. }
  split.
  - apply count_le1_nodup. intros t. destruct (in_dec Z.eq_dec t (dc_tids d)) as [Ht|Ht].
    + destruct (L_Trains.dec_exists_holds d s t) as [[f Hh]|Hn]; [rewrite (One t f Ht Hh); lia|].
      rewrite (count_rows_labelled t Hl), A2; [simpl; lia|]. intros [_ [f F]]. exact (Hn f F).
    + rewrite (count_rows_labelled t Hl), A2 by tauto. simpl. lia.
  - intros t. split.
    + intros H. assert (Ht := labels_in_tids Hr Hk Hgf Hi Ha H). split; [exact Ht|].
      destruct (L_Trains.dec_exists_holds d s t) as [E|Hn]; [exact E|exfalso]. apply count_pos_In in H.
      rewrite (count_rows_labelled t Hl), A2 in H; [simpl in H; lia|]. intros [_ [f F]]. exact (Hn f F).
    + intros [Ht [f Hf]]. apply count_pos_In. rewrite (One t f Ht Hf). lia.
Qed.

Theorem write_outcome : forall name (d : dcoll), reachable d -> good_collection d -> plain_names d -> no_nesting d -> separate_keys d ->
  NoDup (dc_tids d) ->
  (forall s k, available d s k -> good_index d s k) -> (forall s k, available d s k -> exists a, get_array d s k = Ok a) ->
  (control_complete d -> exists f, write name d = Ok f) /\ (~ control_complete d -> write name d = Err EAssertionError) /\
  ((exists f, write name d = Ok f) -> control_complete d).
Proof.
  intros name d Hr Hg Hp Hn Hs HN Hi Ha. assert (Hk := proj1 Hg).
  assert (R : forall s k, available d s k -> 
     (read_real d (is_control d s) s k = Err EAssertionError /\ ~ (is_control d s = true -> forall t, In t (dc_tids d) -> exists f, holds d f s t)) \/
     ((is_control d s = true -> forall t, In t (dc_tids d) -> exists f, holds d f s t) /\ exists o, read_real d (is_control d s) s k = Ok o /\ forall a, o = Some a -> is_control d s = true -> NoDup (la_labels a))).
  { intros s k Av. destruct (Ha s k Av) as [a Ga]. unfold read_real. rewrite Ga. cbn [bind]. destruct (is_control d s) eqn:Ec.
    - destruct (control_labels Hr Hg Av (Hi s k Av) Ec Ga) as [L1 L2]. cbn [andb]. destruct (Nat.eqb_spec (List.length (la_rows a)) (List.length (dc_tids d))) as [E|E]; cbn [negb].
      + right. rewrite <- (get_array_lengths Ga) in E. split.
        * intros _ t Ht. assert (Hinc : incl (dc_tids d) (la_labels a)).
          { apply NoDup_length_incl; [exact L1|lia|]. intros x Hx. now apply L2. }
          apply L2. now apply Hinc.
        * eexists. split; [reflexivity|]. intros a' E' _. injection E' as <-. exact L1.
      + left. split; [reflexivity|]. intros X. apply E. rewrite <- (get_array_lengths Ga). apply Nat.le_antisymm.
        * apply NoDup_incl_length; [exact L1|]. intros x Hx. now apply L2.
        * apply NoDup_incl_length; [exact HN|]. intros x Hx. apply L2. split; [exact Hx|]. now apply X.
    - right. split; [discriminate|]. cbn [andb]. eexists. split; [reflexivity|]. intros; discriminate. }
  destruct (@write_total (@read_real V) name d EAssertionError Hr Hk Hp Hn Hs) as [[W1 W2]|[W1 (s & k & Av & W2)]].
  - intros s k Av. destruct (R s k Av) as [[E _]|[_ E]]; [now left|now right].
  - assert (CC : control_complete d).
    { intros s k t Hc Av Ht. destruct (R s k Av) as [[E _]|[E _]]; [exfalso; exact (W2 s k Av E)|]. now apply E. }
    split; [intros _; exact W1|]. split; [contradiction|auto].
  - assert (NC : ~ control_complete d).
    { intros CC. destruct (R s k Av) as [[_ E]|[_ (o & E & _)]]; [|congruence]. apply E. intros Hc t Ht. exact (CC s k t Hc Av Ht). }
    split; [contradiction|]. split; [intros _; exact W1|]. intros [f E]. unfold write in E. congruence.
Qed.
End W.
