(** Named dimensions of detector arrays: proofs. *)
From Verif Require Import Base PyStr M_Files M_Machinery M_Reader M_Glob M_Select M_Series M_Stacking M_Nd M_Cxi M_Components M_Grid M_DetDims
  S_Reader S_Coll S_Glob S_Select S_Avail S_Series S_Stacking S_Components S_Grid S_DetDims
  L_Base L_Machinery L_Reader L_Trains L_GetArray L_Select L_SelTrains L_Array2 L_Series L_Validation2
  L_Components L_Components2 L_Components3 L_Components4 L_Components5 L_Components6 L_Components7 L_Components8 L_Components9
  L_Components10 L_Components11 L_Components12 L_Grid L_Grid2 L_Grid3.
Set Implicit Arguments. Unset Strict Implicit.
Local Open Scope string_scope.
Local Open Scope list_scope.

Lemma label_pos_none : forall t p labels, ~ In (t, p) labels -> label_pos t p labels = None.
Proof.
  intros t p. induction labels as [|[t' p'] r IH]; intros H; [reflexivity|]. simpl.
  destruct (Z.eqb_spec t' t) as [->|N]; [destruct (Z.eqb_spec p' p) as [->|N]|]; simpl; try (rewrite IH; [reflexivity|intros X; apply H; now right]).
  exfalso. apply H. now left.
Qed.
Lemma label_pos_some : forall t p labels q, NoDup labels -> nth_error labels q = Some (t, p) -> label_pos t p labels = Some q.
Proof.
  intros t p. induction labels as [|[t' p'] r IH]; intros [|q] HN H; simpl in H; try discriminate; simpl.
  - injection H as -> ->. now rewrite !Z.eqb_refl.
  - inversion HN; subst. destruct (Z.eqb_spec t' t) as [->|N]; [destruct (Z.eqb_spec p' p) as [->|N]|]; simpl; try now rewrite (IH q).
    exfalso. apply H2. eapply nth_error_In; eassumption.
Qed.
Lemma pairs_unique_iff : forall l, pairs_unique l = true <-> NoDup l.
Proof.
  induction l as [|[t p] r IH]; simpl; [split; [constructor|reflexivity]|]. rewrite andb_true_iff, negb_true_iff, IH. split.
  - intros [H1 H2]. constructor; [|assumption]. intros Hi. assert (X : existsb (fun y : Z * Z => ((fst y =? t) && (snd y =? p))%Z) r = true); [|congruence].
    apply existsb_exists. exists (t, p). simpl. now rewrite !Z.eqb_refl.
  - intros H. inversion H; subst. split; [|assumption]. destruct (existsb _ r) eqn:E; [|reflexivity]. apply existsb_exists in E as ([t' p'] & H1 & E). simpl in E.
    apply andb_true_iff in E as [E1 E2]. apply Z.eqb_eq in E1, E2. subst. contradiction.
Qed.
Lemma one_dec : forall z : Z, {z = 1%Z} + {z <> 1%Z}.
Proof. intros z. apply Z.eq_dec. Qed.
Lemma frame_item_not1 : forall z r, z <> 1%Z -> frame_item (z :: r) = z :: r.
Proof. intros [|[q|q|]|q] r H; try reflexivity. contradiction. Qed.
Lemma row_index_not1 : forall z r idx, z <> 1%Z -> row_index (z :: r) idx = idx.
Proof. intros [|[q|q|]|q] r idx H; try reflexivity. contradiction. Qed.

Section A.
Context {A : Type}.
Implicit Types (data : nd A) (labels : list (Z * Z)).

Lemma drop_spec : forall data n item, Forall (fun z => 0 <= z)%Z item -> nd_shape data = n :: map Z.to_nat item ->
  nd_shape (drop_spurious data) = n :: map Z.to_nat (frame_item item) /\
  forall i idx, nd_at (drop_spurious data) (i :: idx) = nd_at data (i :: row_index item idx).
Proof.
  intros data n item H0 H. unfold drop_spurious. rewrite H. destruct item as [|z r]; [split; [exact H|reflexivity]|].
  inversion H0; subst. cbn [map]. destruct (one_dec z) as [->|N]; [split; reflexivity|].
  rewrite frame_item_not1 by assumption. assert (E : forall idx, row_index (z :: r) idx = idx) by (intros; now apply row_index_not1).
  destruct (Z.to_nat z) as [|[|k]] eqn:Ez.
  - split; [rewrite H; cbn [map]; now rewrite Ez|]. intros. now rewrite E.
  - exfalso. lia.
  - split; [rewrite H; cbn [map]; now rewrite Ez|]. intros. now rewrite E.
Qed.

(** The outcome for the array without the spurious dimension. *)
Definition result (data : nd A) labels (names : list string) (x : xarr (option A)) : Prop :=
  let ts := zsort_set (map fst labels) in let ps := zsort_set (map snd labels) in
  xa_dims x = "train" :: "pulse" :: names /\
  xa_shape x = List.length ts :: List.length ps :: tl (nd_shape data) /\
  forall i j idx, List.length idx = List.length (tl (nd_shape data)) ->
    xa_at x (i :: j :: idx) =
      match nth_error ts i, nth_error ps j with
      | Some t, Some p => match label_pos t p labels with Some q => Some (nd_at data (q :: idx)) | None => None end
      | _, _ => None
      end.
Definition after (data : nd A) labels : res (xarr (option A)) :=
  let dims := guess_dims (nd_ndim data) in
  let* arr := data_array dims labels data in
  let* arr := unstack_nd labels arr in
  transpose_nd (["train"; "pulse"] ++ List.tl dims) arr.
Lemma after_spec : forall data labels n item, nd_shape data = n :: item ->
  match after data labels with
  | Ok x => List.length labels = n /\ NoDup labels /\ exists names, frame_names (List.length item) names /\ result data labels names x
  | Err e => e = EValueError /\ (List.length labels <> n \/ ~ NoDup labels \/ forall names, ~ frame_names (List.length item) names)
  end.
Proof.
  intros data labels n item H. unfold after, nd_ndim. rewrite H.
  assert (Bad : forall dims, List.length dims <> List.length (n :: item) -> data_array dims labels data = Err EValueError).
  { intros dims Hn. unfold data_array, nd_ndim. rewrite H. destruct (Nat.eqb_spec (List.length dims) (List.length (n :: item))); [contradiction|reflexivity]. }
  assert (Good : forall names, guess_dims (List.length (n :: item)) = "train_pulse" :: names -> frame_names (List.length item) names ->
    List.length names = List.length item ->
    (forall d, In d names -> negb (String.eqb d "train_pulse") = true) ->
    (forall idx : list nat, List.length idx = List.length item -> forall a b, map (by_name ("train" :: "pulse" :: names) (a :: b :: idx)) (names ++ ["train"; "pulse"]) = idx ++ [a; b]) ->
    (forall idx : list nat, List.length idx = List.length item -> forall a, map (by_name ("train_pulse" :: names) (a :: idx)) names = idx) ->
    (forall idx : list nat, List.length idx = List.length item -> forall a b, map (by_name (names ++ ["train"; "pulse"]) (idx ++ [a; b])) ("train" :: "pulse" :: names) = a :: b :: idx) ->
    forallb (fun d => str_in d ("train" :: "pulse" :: names)) (names ++ ["train"; "pulse"]) = true ->
    match (let* arr := data_array ("train_pulse" :: names) labels data in let* arr := unstack_nd labels arr in transpose_nd (["train"; "pulse"] ++ names) arr) with
    | Ok x => List.length labels = n /\ NoDup labels /\ exists names, frame_names (List.length item) names /\ result data labels names x
    | Err e => e = EValueError /\ (List.length labels <> n \/ ~ NoDup labels \/ forall names, ~ frame_names (List.length item) names)
    end).
  { intros names Hg Hf Hl Hnt N1 N2 N3 Hp. unfold data_array, nd_ndim. rewrite H. cbn [List.length]. rewrite Hl, Nat.eqb_refl. cbn [negb].
    assert (E0 : by_name ("train_pulse" :: names) (n :: item) "train_pulse" = n) by reflexivity. rewrite E0.
    destruct (Nat.eqb_spec (List.length labels) n) as [En|En]; cbn [negb bind]; [|auto].
    unfold unstack_nd. destruct (pairs_unique labels) eqn:Eu; cbn [negb bind].
    2:{ split; [reflexivity|]. right. left. intros X. apply pairs_unique_iff in X. congruence. }
    apply pairs_unique_iff in Eu. cbn [xa_dims xa_shape xa_at].
    assert (Ef : filter (fun d => negb (String.eqb d "train_pulse")) ("train_pulse" :: names) = names).
    { cbn [filter]. change (String.eqb "train_pulse" "train_pulse") with true. cbn [negb].
      clear -Hnt. induction names as [|d r IH]; [reflexivity|]. simpl. rewrite (Hnt d (or_introl eq_refl)). f_equal. apply IH. intros; apply Hnt; now right. }
    rewrite Ef. unfold transpose_nd. cbn [xa_dims xa_shape xa_at List.app List.length]. rewrite Hp.
    assert (El : Nat.eqb (S (S (List.length names))) (List.length (names ++ ["train"; "pulse"])) = true).
    { apply Nat.eqb_eq. rewrite app_length. simpl. lia. }
    rewrite El. cbn [negb andb]. split; [assumption|]. split; [assumption|]. exists names. split; [assumption|].
    unfold result. cbn [xa_dims xa_shape xa_at]. split; [reflexivity|]. split.
    - rewrite (N2 item eq_refl). rewrite (N3 item eq_refl). now rewrite H.
    - rewrite H. cbn [tl]. intros i j idx Hi. rewrite (N1 idx Hi i j). specialize (N3 idx Hi i j). cbn [map] in N3. injection N3 as A1 A2 A3.
      rewrite A1, A2. destruct (nth_error _ i); [|reflexivity]. destruct (nth_error _ j); [|reflexivity]. destruct (label_pos _ _ labels); [|reflexivity].
      f_equal. f_equal. cbn [map]. change (String.eqb "train_pulse" "train_pulse") with true. cbn iota. f_equal.
      etransitivity; [|exact A3]. apply map_ext_in. intros d Hd. specialize (Hnt d Hd). apply negb_true_iff in Hnt. now rewrite Hnt. }
  destruct item as [|a [|b [|c [|e r]]]].
  - apply (Good []); try reflexivity; try (intros [|? ?] Hl; [reflexivity|discriminate]); [left; auto|intros ? []].
  - cbn [List.length guess_dims]. rewrite Bad by (cbn; lia). cbn [bind]. split; [reflexivity|]. right. right. intros names [[X _]|[[X _]|[X _]]]; discriminate.
  - apply (Good ["slow_scan"; "fast_scan"]); try reflexivity; try (intros [|? [|? [|? ?]]] Hl; try discriminate; reflexivity); [right; left; auto|intros d [<-|[<-|[]]]; reflexivity].
  - apply (Good ["data_gain"; "slow_scan"; "fast_scan"]); try reflexivity; try (intros [|? [|? [|? [|? ?]]]] Hl; try discriminate; reflexivity);
      [right; right; auto|intros d [<-|[<-|[<-|[]]]]; reflexivity].
  - cbn [List.length guess_dims]. rewrite Bad by (cbn; lia). cbn [bind]. split; [reflexivity|]. right. right. intros names [[X _]|[[X _]|[X _]]]; discriminate.
Qed.

Theorem guess_axes_nd_spec : forall data labels n item, Forall (fun z => 0 <= z)%Z item -> nd_shape data = n :: map Z.to_nat item ->
  match guess_axes_nd data labels with
  | Ok x => List.length labels = n /\ NoDup labels /\ exists ts ps names,
      frame_names (List.length (frame_item item)) names /\
      xa_dims x = "train" :: "pulse" :: names /\
      xa_shape x = List.length ts :: List.length ps :: map Z.to_nat (frame_item item) /\
      StronglySorted Z.lt ts /\ StronglySorted Z.lt ps /\
      (forall t, In t ts <-> exists p, In (t, p) labels) /\ (forall p, In p ps <-> exists t, In (t, p) labels) /\
      forall i j t p idx, nth_error ts i = Some t -> nth_error ps j = Some p -> List.length idx = List.length (frame_item item) ->
        (forall q, nth_error labels q = Some (t, p) -> xa_at x (i :: j :: idx) = Some (nd_at data (q :: row_index item idx))) /\
        (~ In (t, p) labels -> xa_at x (i :: j :: idx) = None)
  | Err e => e = EValueError /\ (List.length labels <> n \/ ~ NoDup labels \/ forall names, ~ frame_names (List.length (frame_item item)) names)
  end.
Proof.
  intros data labels n item H0 H. destruct (drop_spec H0 H) as [D1 D2]. assert (S := @after_spec (drop_spurious data) labels n _ D1).
  rewrite map_length in S. change (guess_axes_nd data labels) with (after (drop_spurious data) labels).
  destruct (after (drop_spurious data) labels) as [x|e]; [|exact S]. destruct S as (S1 & S2 & names & S3 & R1 & R2 & R3).
  rewrite D1 in R2, R3. cbn [tl] in R2, R3. rewrite map_length in R3.
  split; [assumption|]. split; [assumption|]. exists (zsort_set (map fst labels)), (zsort_set (map snd labels)), names.
  split; [assumption|]. split; [assumption|]. split; [assumption|]. split; [apply zsort_set_sorted|]. split; [apply zsort_set_sorted|].
  split; [|split].
  - intros t. rewrite zsort_set_In, in_map_iff. split; [intros ([t' p] & <- & X); eauto|intros (p & X); exists (t, p); auto].
  - intros p. rewrite zsort_set_In, in_map_iff. split; [intros ([t p'] & <- & X); eauto|intros (t & X); exists (t, p); auto].
  - intros i j t p idx Hi Hj Hl. rewrite (R3 i j idx Hl), Hi, Hj. split.
    + intros q Hq. rewrite (label_pos_some S2 Hq). now rewrite D2.
    + intros Hn. now rewrite (label_pos_none Hn).
Qed.

(** The model in which a frame is one value says the same. *)
Lemma find_frame_pos : forall B t p (labels : list (Z * Z)) (rows : list B), List.length labels = List.length rows ->
  find_frame t p (combine labels rows) = match label_pos t p labels with Some q => nth_error rows q | None => None end.
Proof.
  intros B t p. unfold find_frame. induction labels as [|[t' p'] r IH]; intros [|v rows] H; try discriminate; [reflexivity|]. simpl.
  destruct ((t' =? t) && (p' =? p))%Z; [reflexivity|]. rewrite IH by (simpl in H; lia). destruct (label_pos t p r); reflexivity.
Qed.
Lemma fst_combine : forall A0 B (l : list A0) (l' : list B), List.length l = List.length l' -> map fst (combine l l') = l.
Proof. induction l as [|x l IH]; intros [|y l'] H; try discriminate; [reflexivity|]. simpl. f_equal. apply IH. simpl in H; lia. Qed.
Theorem guess_axes_frames : forall data labels n item, Forall (fun z => 0 <= z)%Z item -> nd_shape data = n :: map Z.to_nat item ->
  match guess_axes first_pixels item (map (fun i idx => nd_at data (i :: idx)) (seq 0 n)) labels with
  | Ok a => exists x, guess_axes_nd data labels = Ok x /\
      xa_shape x = List.length (gr_trains (unstack a)) :: List.length (gr_pulses (unstack a)) :: map Z.to_nat (ar_item a) /\
      forall i j t row c idx, nth_error (gr_rows (unstack a)) i = Some (t, row) -> nth_error row j = Some c ->
        List.length idx = List.length (ar_item a) -> xa_at x (i :: j :: idx) = match c with Some v => Some (v idx) | None => None end
  | Err e => guess_axes_nd data labels = Err e
  end.
Proof.
  intros data labels n item H0 H. destruct (drop_spec H0 H) as [D1 D2]. assert (S := @after_spec (drop_spurious data) labels n _ D1).
  rewrite map_length in S. change (guess_axes_nd data labels) with (after (drop_spurious data) labels).
  set (rows := map (fun i idx => nd_at (drop_spurious data) (i :: idx)) (seq 0 n)).
  assert (E : exists rows', (forall i v, nth_error rows' i = Some v -> forall idx, v idx = nd_at (drop_spurious data) (i :: idx)) /\ List.length rows' = n /\
     guess_axes first_pixels item (map (fun i idx => nd_at data (i :: idx)) (seq 0 n)) labels =
     match frame_item item with
     | [] | [_; _] | [_; _; _] =>
         if negb (Nat.eqb (List.length labels) (List.length rows')) then Err EValueError
         else if negb (pairs_unique labels) then Err EValueError
         else Ok (mk_arr (frame_item item) (combine labels rows'))
     | _ => Err EValueError
     end).
  { destruct item as [|z r]; [|destruct (one_dec z) as [->|N]].
    - eexists. split; [|split; [|reflexivity]].
      + intros i v Hi idx. rewrite nth_error_map in Hi. destruct (nth_error (seq 0 n) i) as [i'|] eqn:Ei; [|discriminate]. injection Hi as <-.
        assert (Hlt : (i < List.length (seq 0 n))%nat) by (apply nth_error_Some; congruence). rewrite seq_length in Hlt.
        rewrite (nth_error_nth' (seq 0 n) 0%nat) in Ei by (rewrite seq_length; lia). rewrite seq_nth in Ei by lia. injection Ei as <-. rewrite D2. reflexivity.
      + now rewrite map_length, seq_length.
    - eexists. split; [|split; [|reflexivity]].
      + intros i v Hi idx. rewrite map_map, nth_error_map in Hi. destruct (nth_error (seq 0 n) i) as [i'|] eqn:Ei; [|discriminate]. injection Hi as <-.
        assert (Hlt : (i < List.length (seq 0 n))%nat) by (apply nth_error_Some; congruence). rewrite seq_length in Hlt.
        rewrite (nth_error_nth' (seq 0 n) 0%nat) in Ei by (rewrite seq_length; lia). rewrite seq_nth in Ei by lia. injection Ei as <-. rewrite D2. reflexivity.
      + now rewrite !map_length, seq_length.
    - exists (map (fun i idx => nd_at data (i :: idx)) (seq 0 n)). split; [|split].
      + intros i v Hi idx. rewrite nth_error_map in Hi. destruct (nth_error (seq 0 n) i) as [i'|] eqn:Ei; [|discriminate]. injection Hi as <-.
        assert (Hlt : (i < List.length (seq 0 n))%nat) by (apply nth_error_Some; congruence). rewrite seq_length in Hlt.
        rewrite (nth_error_nth' (seq 0 n) 0%nat) in Ei by (rewrite seq_length; lia). rewrite seq_nth in Ei by lia. injection Ei as <-. rewrite D2.
        now rewrite row_index_not1.
      + now rewrite map_length, seq_length.
      + rewrite frame_item_not1 by assumption. unfold guess_axes. destruct z as [|[q|q|]|q]; try reflexivity. contradiction. }
  destruct E as (rows' & V1 & V2 & ->). clear rows.
  assert (Er : after (drop_spurious data) labels = Err EValueError \/ exists x, after (drop_spurious data) labels = Ok x).
  { destruct (after (drop_spurious data) labels) as [x|e]; [eauto|]. destruct S as [-> _]. auto. }
  assert (Bad : (forall names, ~ frame_names (List.length (frame_item item)) names) \/ List.length labels <> n \/ ~ NoDup labels -> after (drop_spurious data) labels = Err EValueError).
  { intros Hb. destruct (after (drop_spurious data) labels) as [x|e]; [|destruct S as [-> _]; reflexivity].
    destruct S as (S1 & S2 & names & S3 & _). exfalso. destruct Hb as [Hb|[Hb|Hb]]; [exact (Hb names S3)|auto|auto]. }
  assert (Good : forall a, a = mk_arr (frame_item item) (combine labels rows') ->
    (exists names, frame_names (List.length (frame_item item)) names) ->
    match (if negb (Nat.eqb (List.length labels) (List.length rows')) then Err EValueError
         else if negb (pairs_unique labels) then Err EValueError else Ok a) with
    | Ok a => exists x, after (drop_spurious data) labels = Ok x /\
      xa_shape x = List.length (gr_trains (unstack a)) :: List.length (gr_pulses (unstack a)) :: map Z.to_nat (ar_item a) /\
      forall i j t row c idx, nth_error (gr_rows (unstack a)) i = Some (t, row) -> nth_error row j = Some c ->
        List.length idx = List.length (ar_item a) -> xa_at x (i :: j :: idx) = match c with Some v => Some (v idx) | None => None end
    | Err e => after (drop_spurious data) labels = Err e
    end).
  { intros a Ea (names & Hn). rewrite V2. destruct (Nat.eqb_spec (List.length labels) n) as [El|El]; cbn [negb]; [|apply Bad; auto].
    destruct (pairs_unique labels) eqn:Eu; cbn [negb].
    2:{ apply Bad. right. right. intros X. apply pairs_unique_iff in X. congruence. }
    apply pairs_unique_iff in Eu. destruct (after (drop_spurious data) labels) as [x|e].
    2:{ exfalso. destruct S as [_ [S|[S|S]]]; auto. exact (S names Hn). }
    destruct S as (_ & _ & names' & S3 & R1 & R2 & R3). exists x. split; [reflexivity|]. rewrite D1 in R2, R3. cbn [tl] in R2, R3. rewrite map_length in R3.
    assert (Et : map (@frame_train (list nat -> A)) (ar_frames a) = map fst labels).
    { subst a. cbn [ar_frames]. unfold frame_train. rewrite <- (map_map fst fst). rewrite fst_combine by lia. reflexivity. }
    assert (Ep : map (fun x0 : Z * Z * (list nat -> A) => snd (fst x0)) (ar_frames a) = map snd labels).
    { subst a. cbn [ar_frames]. rewrite <- (map_map fst snd). rewrite fst_combine by lia. reflexivity. }
    unfold unstack, gr_trains. cbn [gr_rows gr_pulses]. rewrite map_map. cbn [fst]. rewrite map_id, Et, Ep. split; [subst a; exact R2|].
    intros i j t row c idx Hi Hj Hl. rewrite nth_error_map in Hi. destruct (nth_error (zsort_set (map fst labels)) i) as [t'|] eqn:Ei; [|discriminate].
    cbn [option_map] in Hi. injection Hi as <- <-. rewrite nth_error_map in Hj. destruct (nth_error (zsort_set (map snd labels)) j) as [p|] eqn:Ej; [|discriminate].
    cbn [option_map] in Hj. injection Hj as <-. rewrite (R3 i j idx) by (subst a; exact Hl). rewrite Ei, Ej.
    subst a. cbn [ar_frames]. rewrite find_frame_pos by lia. destruct (label_pos t' p labels) as [q|] eqn:Eq; [|reflexivity].
    destruct (nth_error rows' q) as [v|] eqn:Ev; [now rewrite (V1 q v Ev)|]. exfalso. apply nth_error_None in Ev.
    assert (q < List.length labels)%nat; [|lia]. clear -Eq. revert q Eq. induction labels as [|[a b] r IH]; intros q; [discriminate|]. simpl.
    destruct (_ && _)%bool; [intros X; injection X as <-; lia|]. destruct (label_pos t' p r); [|discriminate]. intros X. injection X as <-. specialize (IH _ eq_refl). lia. }
  destruct (frame_item item) as [|a [|b [|c [|e r]]]] eqn:Ef.
  - apply Good; [reflexivity|]. exists []. now left.
  - apply Bad. left. intros names [[X _]|[[X _]|[X _]]]; discriminate.
  - apply Good; [reflexivity|]. eexists. right. left. split; reflexivity.
  - apply Good; [reflexivity|]. eexists. right. right. split; reflexivity.
  - apply Bad. left. intros names [[X _]|[[X _]|[X _]]]; discriminate.
Qed.
End A.
