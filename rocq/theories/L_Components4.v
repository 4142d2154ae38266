(** Reading a detector module: files, chunks, frames of a train. *)
From Verif Require Import Base PyStr M_Files M_Machinery M_Reader M_Components S_Reader S_Coll S_Series S_Components
  L_Base L_Machinery L_Reader L_Trains L_GetArray L_Array2 L_SelTrains L_Series L_Components L_Components2 L_Components3.
Set Implicit Arguments. Unset Strict Implicit.
Local Open Scope list_scope.

Lemma pairs_unique_iff : forall l, pairs_unique l = true <-> NoDup l.
Proof.
  induction l as [|[a b] l IH]; simpl; [split; [constructor|reflexivity]|].
  rewrite andb_true_iff, negb_true_iff, IH. split.
  - intros [H1 H2]. constructor; [|assumption]. intros Hin.
    assert (existsb (fun y => ((fst y =? a) && (snd y =? b))%Z) l = true); [|congruence].
    apply existsb_exists. exists (a, b). split; [assumption|]. simpl. now rewrite !Z.eqb_refl.
  - intros H. inversion H; subst. split; [|assumption]. destruct (existsb _ l) eqn:E; [|reflexivity].
    apply existsb_exists in E as ([a' b'] & Hin & E). simpl in E. apply andb_true_iff in E as [E1 E2].
    apply Z.eqb_eq in E1, E2. subst. contradiction.
Qed.

Lemma NoDup_flat_map_nonempty : forall A B (h : A -> list B) l, NoDup (flat_map h l) -> (forall x, In x l -> h x <> []) -> NoDup l.
Proof.
  intros A B h. induction l as [|a l IH]; intros HN Hne; [constructor|]. simpl in HN. constructor.
  - intros Hin. destruct (h a) as [|b r] eqn:E; [now apply (Hne a (or_introl eq_refl))|].
    inversion HN as [|? ? Hni _]; subst. apply Hni. apply in_or_app. right. apply in_flat_map. exists a. split; [assumption|].
    rewrite E. now left.
  - apply IH; [eapply NoDup_app_r; eassumption|]. intros x Hx. apply Hne. now right.
Qed.
Lemma NoDup_pairs : forall A B (g : A -> list B) l, NoDup l -> (forall x, In x l -> NoDup (g x)) ->
  NoDup (flat_map (fun x => map (pair x) (g x)) l).
Proof.
  intros A B g. induction l as [|a l IH]; intros HN Hg; simpl; [constructor|]. inversion HN; subst.
  apply NoDup_app_intro.
  - apply FinFun.Injective_map_NoDup; [intros x y H; congruence|apply Hg; now left].
  - apply IH; [assumption|]. intros; apply Hg; now right.
  - intros x Hx Hx2. apply in_map_iff in Hx as (b & <- & _). apply in_flat_map in Hx2 as (a' & Ha & Hx2).
    apply in_map_iff in Hx2 as (b' & E & _). congruence.
Qed.
Lemma pairs_single : forall A B (g : A -> list B) l, NoDup l ->
  (forall x y, In x l -> In y l -> g x <> [] -> g y <> [] -> x = y) ->
  ForallOrdPairs (fun x y => g x = [] \/ g y = []) l.
Proof.
  intros A B g. induction l as [|a l IH]; intros HN H; [constructor|]. inversion HN; subst. constructor.
  - apply Forall_forall. intros y Hy. destruct (g a) eqn:E1; [now left|]. right. destruct (g y) eqn:E2; [reflexivity|].
    exfalso. assert (a = y); [|subst; contradiction]. apply H; [now left|now right|congruence|congruence].
  - apply IH; [assumption|]. intros x y Hx Hy. apply H; now right.
Qed.
Lemma ForallOrdPairs_filter : forall A (R : A -> A -> Prop) p l, ForallOrdPairs R l -> ForallOrdPairs R (filter p l).
Proof.
  intros A R p l H. induction H as [|a l Ha H IH]; simpl; [constructor|]. destruct (p a); [|assumption]. constructor; [|assumption].
  rewrite Forall_forall in *. intros x Hx. apply filter_In in Hx as [Hx _]. auto.
Qed.
Lemma ForallOrdPairs_map : forall A B (R : B -> B -> Prop) (h : A -> B) l, ForallOrdPairs (fun x y => R (h x) (h y)) l -> ForallOrdPairs R (map h l).
Proof.
  intros A B R h l H. induction H as [|a l Ha H IH]; simpl; constructor; [|assumption].
  apply Forall_map. exact Ha.
Qed.
Lemma flat_map_filter_drop : forall A B (g : A -> list B) p l, (forall x, In x l -> p x = false -> g x = []) ->
  flat_map g (filter p l) = flat_map g l.
Proof.
  intros A B g p. induction l as [|a l IH]; intros H; simpl; [reflexivity|]. destruct (p a) eqn:E; simpl.
  - f_equal. apply IH. intros; apply H; auto; now right.
  - rewrite (H a (or_introl eq_refl) E). simpl. apply IH. intros; apply H; auto; now right.
Qed.

Section C.
Context {V : Type}.
Notation faccess := (faccess V).
Notation dcoll := (dcoll V).
Context (first : V -> V) (pulse : V -> Z).

(** *** Arrays of parts *)
Definition frame (ds : dataset V) (x : Z * (Z * V)) : Z * Z * V := (fst x, fst (snd x), frame_of first ds (snd (snd x))).
Definition part (ps : psel) (ds : dataset V) (rows : list (Z * V)) (E : list entry) : arr V :=
  mk_arr (frame_shape ds) (map (frame ds) (selected_rows ps rows E)).
Definition part_ok (ps : psel) (ds : dataset V) (rows : list (Z * V)) (E : list entry) : Prop :=
  known_shape (frame_shape ds) /\ NoDup (map lab (selected_rows ps rows E)) /\
  (ps_by_id ps = false -> is_all (ps_val ps) = false -> StronglySorted Z.lt (index_positions (desired (ps_val ps)) 0 E)).

Lemma shape_cases : forall l : list Z, {known_shape l} + {~ known_shape l}.
Proof.
  intros l. unfold known_shape. destruct (Nat.eq_dec (List.length l) 0); [left; auto|].
  destruct (Nat.eq_dec (List.length l) 2); [left; auto|]. destruct (Nat.eq_dec (List.length l) 3); [left; auto|right; tauto].
Qed.

Lemma guess_axes_spec : forall (ds : dataset V) (S : list (Z * (Z * V))) a,
  guess_axes first (ds_item ds) (map dat S) (map lab S) = Ok a <->
  known_shape (frame_shape ds) /\ NoDup (map lab S) /\ a = mk_arr (frame_shape ds) (map (frame ds) S).
Proof.
  intros ds S a.
  assert (K : forall it (fr : V -> V), 
     (match it with
      | [] | [_; _] | [_; _; _] =>
          if negb (Nat.eqb (List.length (map lab S)) (List.length (map fr (map dat S)))) then Err EValueError
          else if negb (pairs_unique (map lab S)) then Err EValueError
          else Ok (mk_arr it (combine (map lab S) (map fr (map dat S))))
      | _ => Err EValueError
      end = Ok a) <-> known_shape it /\ NoDup (map lab S) /\ a = mk_arr it (map (fun x => (fst x, fst (snd x), fr (snd (snd x)))) S)).
  { intros it fr. rewrite !map_length, Nat.eqb_refl. cbn [negb].
    assert (C : combine (map lab S) (map fr (map dat S)) = map (fun x => (fst x, fst (snd x), fr (snd (snd x)))) S).
    { rewrite map_map, combine_maps. reflexivity. }
    rewrite C.
    assert (D : (if negb (pairs_unique (map lab S)) then Err EValueError else Ok (mk_arr it (map (fun x => (fst x, fst (snd x), fr (snd (snd x)))) S))) = Ok a
       <-> NoDup (map lab S) /\ a = mk_arr it (map (fun x => (fst x, fst (snd x), fr (snd (snd x)))) S)).
    { rewrite <- pairs_unique_iff. destruct (pairs_unique (map lab S)); simpl; split.
      - intros H; injection H as <-; auto.
      - intros [_ ->]; reflexivity.
      - discriminate.
      - intros [H _]; discriminate. }
    unfold known_shape. destruct it as [|x [|y [|z [|]]]]; cbn [List.length]; try (rewrite D; intuition lia);
      (split; [discriminate|]; intros ([H|[H|H]] & _); discriminate H || lia). }
  unfold guess_axes, frame_shape, frame, frame_of.
  assert (Kid : forall it, (match it with
      | [] | [_; _] | [_; _; _] =>
          if negb (Nat.eqb (List.length (map lab S)) (List.length (map dat S))) then Err EValueError
          else if negb (pairs_unique (map lab S)) then Err EValueError
          else Ok (mk_arr it (combine (map lab S) (map dat S)))
      | _ => Err EValueError
      end = Ok a) <-> known_shape it /\ NoDup (map lab S) /\ a = mk_arr it (map (fun x => (fst x, fst (snd x), snd (snd x))) S)).
  { intros it. pose proof (K it (fun v => v)) as Q. rewrite map_id in Q. exact Q. }
  destruct (ds_item ds) as [|[|[p|p|]|p] r];
    [exact (Kid [])|exact (Kid (0%Z :: r))|exact (Kid (Z.pos p~1 :: r))|exact (Kid (Z.pos p~0 :: r))|exact (K r first)|exact (Kid (Z.neg p :: r))].
Qed.

Lemma finish_spec : forall ps (ds : dataset V) rows E a, finish first ps ds rows E = Ok a <-> part_ok ps ds rows E /\ a = part ps ds rows E.
Proof.
  intros ps ds rows E a. unfold finish, part_ok, part.
  destruct (ps_by_id ps); cbn [negb andb]; [rewrite guess_axes_spec; intuition discriminate|].
  destruct (is_all (ps_val ps)); cbn [negb andb]; [rewrite guess_axes_spec; intuition discriminate|].
  rewrite <- increasing_iff. destruct (increasing _); cbn [negb]; [rewrite guess_axes_spec; intuition|].
  split; [discriminate|]. intros ((_ & _ & H) & _). specialize (H eq_refl eq_refl). discriminate.
Qed.

Lemma entry_sel_label : forall ps (rows : list (Z * V)) e x, In x (entry_sel ps rows e) -> fst x = fst e.
Proof.
  intros ps rows e x H.
  assert (G : forall y, In y (entry_rows rows e) -> fst y = fst e).
  { intros y Hy. unfold entry_rows in Hy. apply in_map_iff in Hy as (z & <- & _). reflexivity. }
  unfold entry_sel in H. destruct (is_all _); [now apply G|]. destruct (ps_by_id ps).
  - apply filter_In in H as [H _]. now apply G.
  - revert H. generalize (filter (fun i => (i <? e_count e)%Z) (desired (ps_val ps))). intros l. induction l as [|i l IH]; simpl; [intros []|].
    destruct (nth_error (entry_rows rows e) (Z.to_nat i)) as [y|] eqn:E; [|exact IH].
    intros [<-|H]; [|auto]. apply G. eapply nth_error_In; eassumption.
Qed.

Lemma frames_at_part : forall ps (ds : dataset V) rows E t,
  frames_at t (part ps ds rows E) = map (frame ds) (flat_map (fun e => if (fst e =? t)%Z then entry_sel ps rows e else []) E).
Proof.
  intros ps ds rows E t. unfold frames_at, part, selected_rows. cbn [ar_frames].
  induction E as [|e E IH]; simpl; [reflexivity|]. rewrite !map_app, filter_app, IH. f_equal.
  pose proof (@entry_sel_label ps rows e) as G. induction (entry_sel ps rows e) as [|x l IHl].
  - destruct (_ =? _)%Z; reflexivity.
  - simpl. rewrite (G x (or_introl eq_refl)). destruct (fst e =? t)%Z eqn:Et.
    + simpl. f_equal. apply IHl. intros; apply G; now right.
    + apply IHl. intros; apply G; now right.
Qed.

Lemma gapless_dec : forall (f : faccess) c, {gapless f c} + {~ gapless f c}.
Proof.
  intros f c.
  assert (H : forallb (fun t => z_in t (fa_tids f) || forallb (fun x => forallb (fun y => negb ((x <=? t) && (t <=? y))%Z) (fa_tids f)) (fa_tids f)) c = true <-> gapless f c).
  { rewrite forallb_forall. unfold gapless. split.
    - intros H t x y Ht Hx Hy Hxy. specialize (H t Ht). apply orb_true_iff in H as [H|H]; [now apply z_in_iff|].
      rewrite forallb_forall in H. specialize (H x Hx). rewrite forallb_forall in H. specialize (H y Hy).
      apply negb_true_iff, andb_false_iff in H. lia.
    - intros H t Ht. apply orb_true_iff. destruct (z_in t (fa_tids f)) eqn:E; [now left|right].
      apply forallb_forall. intros x Hx. apply forallb_forall. intros y Hy. apply negb_true_iff.
      destruct ((x <=? t) && (t <=? y))%Z eqn:E2; [|reflexivity]. apply andb_true_iff in E2.
      assert (In t (fa_tids f)) by (apply (H t x y); auto; lia). apply z_in_iff in H0. congruence. }
  destruct (forallb _ c) eqn:E; [left; now apply H|right; intros G; apply H in G; congruence].
Qed.

(** *** Data of a file *)
Definition ents (f : faccess) (s k : string) : list entry :=
  match fa_get_index f s (key_group k) with Ok ix => entries (fa_tids f) (fst ix) (snd ix) | Err _ => [] end.
Definition dset (f : faccess) (path : string) : dataset V :=
  match fa_dataset f path with Ok ds => ds | Err _ => mk_ds "" [] [] end.
Definition dds (f : faccess) (s k : string) := dset f (ds_path "INSTRUMENT" s k).
Definition dpds (f : faccess) (s k : string) := dset f ("INSTRUMENT/" ++ s ++ "/" ++ key_group k ++ "/pulseId")%string.
Definition drows (f : faccess) (s k : string) : list (Z * V) := combine (map pulse (ds_rows (dpds f s k))) (ds_rows (dds f s k)).
Definition has_data (f : faccess) (s k : string) : Prop := fa_tids f <> [] /\ module_data f s k (ents f s k) (dds f s k) (dpds f s k).
Definition in_chunk (f : faccess) (s k : string) (c : list Z) : list entry := filter (fun e => z_in (fst e) c) (ents f s k).
Definition chunk_arr (s k : string) (ps : psel) (f : faccess) (c : list Z) : arr V := part ps (dds f s k) (drows f s k) (in_chunk f s k c).
Definition meets (f : faccess) (s k : string) (c : list Z) : bool := match in_chunk f s k c with [] => false | _ => true end.

Lemma ents_fst : forall f s k ds pds, module_data f s k (ents f s k) ds pds -> map fst (ents f s k) = fa_tids f.
Proof.
  intros f s k ds pds [_ (firsts & counts & H1 & H2 & H3 & H4) _ _ _ _ _ _]. rewrite H4. now apply entries_fst.
Qed.

Lemma file_parts_spec : forall (m : mpx V) s k ps f l, has_data f s k -> Forall (fun z => 0 <= z)%Z (desired (ps_val ps)) ->
  Forall (fun c => exists a b, is_run c a b) (mx_chunks m) ->
  (file_parts first pulse m s k ps f = Ok l <->
   (forall c, In c (mx_chunks m) -> gapless f c /\ (meets f s k c = true -> part_ok ps (dds f s k) (drows f s k) (in_chunk f s k c))) /\
   l = map (chunk_arr s k ps f) (filter (meets f s k) (mx_chunks m))).
Proof.
  intros m s k ps f l [Hne Hm] HD Hruns. unfold file_parts.
  assert (Hx : exists firsts counts, fa_get_index f s (key_group k) = Ok (firsts, counts)).
  { destruct (md_ix Hm) as (firsts & counts & Hix & _). eauto. }
  destruct Hx as (firsts & counts & Hix). rewrite Hix. cbn [bind fst snd].
  (* one chunk *)
  assert (One : forall c o, (exists a b, is_run c a b) ->
     (chunk_part first pulse f s k ps firsts counts c = Ok o <->
      (gapless f c /\ (meets f s k c = true -> part_ok ps (dds f s k) (drows f s k) (in_chunk f s k c))) /\
      o = if meets f s k c then Some (chunk_arr s k ps f c) else None)).
  { intros c o (a & b & Hr).
    destruct (@chunk_part_spec V first pulse f s k ps (ents f s k) (dds f s k) (dpds f s k) firsts counts c a b Hm Hix Hne Hr HD) as [G1 G2].
    fold (drows f s k) in G1. fold (in_chunk f s k c) in G1.
    destruct (gapless_dec f c) as [G|G].
    - rewrite (G1 G). unfold meets, chunk_arr. clear G1 G2. destruct (in_chunk f s k c) as [|e E].
      + split; [intros H; injection H as <-; intuition discriminate|intros [_ ->]; reflexivity].
      + split.
        * intros H. apply bind_ok in H as (a0 & H & H'). apply finish_spec in H as [H ->]. injection H' as <-. auto.
        * intros [[_ H] ->]. specialize (H eq_refl).
          assert (F : finish first ps (dds f s k) (drows f s k) (e :: E) = Ok (part ps (dds f s k) (drows f s k) (e :: E)))
            by (apply finish_spec; auto).
          match goal with |- bind ?F0 _ = _ => change F0 with (finish first ps (dds f s k) (drows f s k) (e :: E)) end.
          rewrite F. reflexivity.
    - destruct (G2 G) as [e He]. rewrite He. split; [discriminate|]. intros [[H _] _]. contradiction. }
  split.
  - intros H. apply bind_ok in H as (os & H & H'). injection H' as <-. apply mapM_ok_iff in H.
    revert Hruns. induction H as [|c o cs os Hc H IH]; intros Hruns; [split; [intros ? []|reflexivity]|].
    inversion Hruns; subst. destruct (IH H3) as [I1 I2]. apply One in Hc as [[Hc1 Hc2] ->]; [|assumption]. split.
    + intros c' [<-|Hc']; auto.
    + cbn [flat_map filter]. rewrite I2. destruct (meets f s k c); reflexivity.
  - intros [H ->].
    assert (X : mapM (chunk_part first pulse f s k ps firsts counts) (mx_chunks m) =
                Ok (map (fun c => if meets f s k c then Some (chunk_arr s k ps f c) else None) (mx_chunks m))).
    { apply mapM_ok_iff. induction (mx_chunks m) as [|c cs IH]; simpl; constructor.
      - inversion Hruns; subst. apply One; [assumption|]. split; [apply H; now left|reflexivity].
      - inversion Hruns; subst. apply IH; [assumption|]. intros; apply H; now right. }
    rewrite X. cbn [bind]. f_equal. clear. induction (mx_chunks m) as [|c cs IH]; simpl; [reflexivity|].
    destruct (meets f s k c); simpl; now rewrite IH.
Qed.

Lemma concat_trains_frames : forall (l : list (arr V)) a t, Forall (fun b => ~ In 0%Z (ar_item b)) l ->
  ForallOrdPairs (fun x y => frames_at t x = [] \/ frames_at t y = []) l ->
  concat_trains l = Ok a -> frames_at t a = flat_map (frames_at t) l.
Proof.
  intros l a t Hz Ho H. unfold concat_trains in H.
  assert (Hd : forall x, In x l -> arr_nonempty x = false -> ar_frames x = []).
  { intros x Hx E. unfold arr_nonempty in E. rewrite Forall_forall in Hz. apply andb_false_iff in E as [E|E].
    - apply negb_false_iff, Nat.eqb_eq in E. now apply length_zero_iff_nil.
    - apply negb_false_iff, z_in_iff in E. exfalso. exact (Hz x Hx E). }
  assert (Hd' : forall x, In x l -> arr_nonempty x = false -> frames_at t x = []).
  { intros x Hx E. unfold frames_at. now rewrite (Hd x Hx E). }
  rewrite <- (flat_map_filter_drop (p := @arr_nonempty V) Hd').
  destruct (filter (@arr_nonempty V) l) as [|b r] eqn:Ef.
  - destruct l as [|x l]; [discriminate|]. injection H as <-. simpl. apply Hd'; [now left|].
    destruct (arr_nonempty x) eqn:E; [|reflexivity]. simpl in Ef. rewrite E in Ef. discriminate.
  - destruct (forallb _ r); [|discriminate]. injection H as <-.
    unfold frames_at at 1. cbn [ar_frames]. rewrite filter_flat_map. fold (frames_at (V := V) t).
    destruct (@flat_map_perm_single _ _ (frames_at (V := V) t) _ _ (sort_key_perm (@first_train V) (filter (@arr_nonempty V) l))) as [P _].
    { now apply ForallOrdPairs_filter. }
    rewrite Ef in *. rewrite P. reflexivity.
Qed.

Section D.
Context (m : mpx V) (s k : string) (ps : psel).
Let fs := source_files (dc_files (mx_data m)) s.
Context (Hdata : forall f, In f fs -> has_data f s k) (Hz : forall f, In f fs -> ~ In 0%Z (ds_item (dds f s k))).
Context (HD : Forall (fun z => 0 <= z)%Z (desired (ps_val ps))).
Context (Hruns : Forall (fun c => exists a b, is_run c a b) (mx_chunks m)).
Context (HNf : NoDup (flat_map (@fa_tids V) fs)) (HNt : NoDup (List.concat (mx_chunks m))).

Definition part_list : list (faccess * list Z) := flat_map (fun f => map (pair f) (filter (meets f s k) (mx_chunks m))) fs.
Definition part_arr (fc : faccess * list Z) : arr V := chunk_arr s k ps (fst fc) (snd fc).

Lemma module_data_spec : forall a, get_module_pulse_data first pulse m s k ps = Ok a <->
  (forall f c, In f fs -> In c (mx_chunks m) -> gapless f c /\
     (meets f s k c = true -> part_ok ps (dds f s k) (drows f s k) (in_chunk f s k c))) /\
  concat_trains (map part_arr part_list) = Ok a.
Proof.
  intros a. unfold get_module_pulse_data. fold fs.
  assert (L : forall fs' : list faccess, List.concat (map (fun f => map (chunk_arr s k ps f) (filter (meets f s k) (mx_chunks m))) fs') =
    map part_arr (flat_map (fun f => map (pair f) (filter (meets f s k) (mx_chunks m))) fs')).
  { intros fs'. rewrite <- flat_map_concat_map, map_flat_map. apply flat_map_ext_in. intros f _. rewrite map_map. reflexivity. }
  split.
  - intros H. apply bind_ok in H as (l & H & H'). apply mapM_ok_iff in H.
    assert (X : (forall f c, In f fs -> In c (mx_chunks m) -> gapless f c /\
        (meets f s k c = true -> part_ok ps (dds f s k) (drows f s k) (in_chunk f s k c))) /\
        l = map (fun f => map (chunk_arr s k ps f) (filter (meets f s k) (mx_chunks m))) fs).
    { assert (Hin : incl fs fs) by apply incl_refl. clear HNf H'. revert Hin H. generalize fs at 1 3 4 5 as fs'. intros fs' Hin H. revert Hin.
      induction H as [|f y fs' l Hf H IH]; intros Hin; [split; [intros ? ? []|reflexivity]|].
      destruct IH as [I1 I2]; [intros x Hx; apply Hin; now right|].
      apply file_parts_spec in Hf as [Hf ->]; [|apply Hdata, Hin; now left|assumption|assumption]. split.
      - intros f' c [<-|Hf'] Hc; auto.
      - simpl. now rewrite I2. }
    destruct X as [X1 X2]. split; [exact X1|]. unfold part_list. rewrite <- L, <- X2. exact H'.
  - intros [H1 H2].
    assert (X : mapM (file_parts first pulse m s k ps) fs = Ok (map (fun f => map (chunk_arr s k ps f) (filter (meets f s k) (mx_chunks m))) fs)).
    { apply mapM_ok_iff. clear HNf. assert (Hin : incl fs fs) by apply incl_refl. revert Hin. generalize fs at 1 3 4 as fs'. 
      induction fs' as [|f fs' IH]; intros Hin; simpl; constructor.
      - apply file_parts_spec; [apply Hdata, Hin; now left|assumption|assumption|]. split; [|reflexivity].
        intros c Hc. apply H1; [apply Hin; now left|assumption].
      - apply IH. intros x Hx. apply Hin. now right. }
    rewrite X. cbn [bind]. rewrite L. exact H2.
Qed.

Lemma part_frames : forall f c t, In f fs -> 
  frames_at t (chunk_arr s k ps f c) =
  if z_in t c then map (frame (dds f s k)) (flat_map (fun e => if (fst e =? t)%Z then entry_sel ps (drows f s k) e else []) (ents f s k)) else [].
Proof.
  intros f c t Hf. unfold chunk_arr. rewrite frames_at_part. unfold in_chunk.
  destruct (z_in t c) eqn:Et.
  - f_equal. apply flat_map_filter_drop. intros e _ He. destruct (Z.eqb_spec (fst e) t); [subst; congruence|reflexivity].
  - rewrite flat_map_nil; [reflexivity|]. intros e He. apply filter_In in He as [_ He].
    destruct (Z.eqb_spec (fst e) t); [subst; congruence|reflexivity].
Qed.

Lemma in_concat_chunks : forall t, In t (List.concat (mx_chunks m)) -> exists c, In c (mx_chunks m) /\ In t c.
Proof. intros t H. apply in_concat in H as (c & H1 & H2). eauto. Qed.

Lemma frames_of_train : forall a t, get_module_pulse_data first pulse m s k ps = Ok a ->
  (forall f e, In f fs -> In t (List.concat (mx_chunks m)) -> In e (ents f s k) -> fst e = t ->
     frames_at t a = map (frame (dds f s k)) (entry_sel ps (drows f s k) e)) /\
  (~ In t (List.concat (mx_chunks m)) -> frames_at t a = []) /\
  ((forall f, In f fs -> ~ In t (fa_tids f)) -> frames_at t a = []).
Proof.
  intros a t Ha. apply module_data_spec in Ha as [Hall Ha].
  assert (HNfs : NoDup fs).
  { eapply NoDup_flat_map_nonempty; [exact HNf|]. intros f Hf. exact (proj1 (@Hdata f Hf)). }
  assert (HNcs : NoDup (mx_chunks m)).
  { apply (@NoDup_flat_map_nonempty _ _ (fun c : list Z => c)); [rewrite flat_map_concat_map, map_id; exact HNt|].
    intros c Hc E. rewrite Forall_forall in Hruns. destruct (Hruns c Hc) as (x & y & _ & H & _). subst. discriminate. }
  assert (Hpl : NoDup part_list).
  { apply NoDup_pairs; [assumption|]. intros f _. now apply NoDup_filter. }
  assert (Hin : forall fc, In fc part_list -> In (fst fc) fs /\ In (snd fc) (mx_chunks m)).
  { intros fc H. apply in_flat_map in H as (f & Hf & H). apply in_map_iff in H as (c & <- & Hc). apply filter_In in Hc. simpl. tauto. }
  assert (Hwhere : forall fc, In fc part_list -> frames_at t (part_arr fc) <> [] -> In t (snd fc) /\ In t (fa_tids (fst fc))).
  { intros [f c] Hfc Hne. destruct (Hin _ Hfc) as [Hf Hc]. simpl in *. unfold part_arr in Hne. simpl in Hne.
    rewrite (part_frames c t Hf) in Hne. destruct (z_in t c) eqn:Et; [|congruence]. apply z_in_iff in Et. split; [assumption|].
    rewrite <- (ents_fst (proj2 (@Hdata f Hf))). destruct (in_dec Z.eq_dec t (map fst (ents f s k))) as [|Hni]; [assumption|].
    exfalso. apply Hne. rewrite flat_map_nil; [reflexivity|]. intros e He. destruct (Z.eqb_spec (fst e) t); [|reflexivity].
    exfalso. apply Hni. subst t. now apply in_map. }
  assert (Hsame : forall f g, In f fs -> In g fs -> In t (fa_tids f) -> In t (fa_tids g) -> f = g).
  { intros f g Hf Hg H1 H2. exact (@flat_unique _ (@fa_tids V) fs f g t HNf Hf Hg H1 H2). }
  assert (Hsamec : forall c c', In c (mx_chunks m) -> In c' (mx_chunks m) -> In t c -> In t c' -> c = c').
  { intros c c' Hc Hc' H1 H2. apply (@flat_unique _ (fun c : list Z => c) (mx_chunks m) c c' t); assumption. }
  assert (Hop : ForallOrdPairs (fun x y => frames_at t (part_arr x) = [] \/ frames_at t (part_arr y) = []) part_list).
  { apply pairs_single; [assumption|]. intros [f c] [f' c'] Hx Hy Nx Ny.
    destruct (Hwhere _ Hx Nx) as [A1 A2]. destruct (Hwhere _ Hy Ny) as [B1 B2].
    destruct (Hin _ Hx) as [C1 C2]. destruct (Hin _ Hy) as [D1 D2]. simpl in *. f_equal; auto. }
  assert (Hfr : frames_at t a = flat_map (fun fc => frames_at t (part_arr fc)) part_list).
  { rewrite (@concat_trains_frames (map part_arr part_list) a t).
    - now rewrite flat_map_map.
    - apply Forall_map, Forall_forall. intros fc Hfc. destruct (Hin _ Hfc) as [Hf _]. unfold part_arr, chunk_arr, part. cbn [ar_item].
      intros H0. apply (@Hz _ Hf). unfold frame_shape in H0. destruct (ds_item (dds (fst fc) s k)) as [|[|[p|p|]|p] r]; try exact H0.
      now right.
    - now apply ForallOrdPairs_map.
    - exact Ha. }
  rewrite Hfr. clear Hfr. split; [|split].
  - intros f e Hf Ht He Hfe. apply in_concat_chunks in Ht as (c & Hc & Htc).
    assert (Htf : In t (fa_tids f)) by (rewrite <- (ents_fst (proj2 (@Hdata f Hf))), <- Hfe; now apply in_map).
    assert (Hmeet : meets f s k c = true).
    { unfold meets. assert (In e (in_chunk f s k c)) by (apply filter_In; split; [assumption|rewrite Hfe; now apply z_in_iff]).
      destruct (in_chunk f s k c); [destruct H|reflexivity]. }
    assert (Hp : In (f, c) part_list).
    { apply in_flat_map. exists f. split; [assumption|]. apply in_map, filter_In. auto. }
    assert (Hs : flat_map (fun fc => frames_at t (part_arr fc)) part_list = frames_at t (part_arr (f, c))).
    { clear Hop Ha. induction part_list as [|x l IH]; [destruct Hp|]. inversion Hpl as [|? ? H1 H2]. subst x0 l0. simpl. destruct Hp as [->|Hp].
      - rewrite flat_map_nil; [apply app_nil_r|]. intros [f' c'] Hy. destruct (frames_at t (part_arr (f', c'))) eqn:Ey; [reflexivity|].
        exfalso. destruct (Hwhere (f', c') (or_intror Hy)) as [A1 A2]; [rewrite Ey; discriminate|].
        destruct (Hin (f', c') (or_intror Hy)) as [B1 B2]. simpl in *. apply H1.
        rewrite (Hsame f f'), (Hsamec c c') by assumption. assumption.
      - destruct x as [f' c']. destruct (frames_at t (part_arr (f', c'))) eqn:Ey.
        + simpl. apply IH; auto; intros; [apply Hin|apply Hwhere]; auto; now right.
        + exfalso. destruct (Hwhere (f', c') (or_introl eq_refl)) as [A1 A2]; [rewrite Ey; discriminate|].
          destruct (Hin (f', c') (or_introl eq_refl)) as [B1 B2]. simpl in *. apply H1.
          rewrite (Hsame f' f), (Hsamec c' c) by assumption. assumption. }
    rewrite Hs. unfold part_arr. cbn [fst snd]. rewrite (part_frames c t Hf). rewrite (proj2 (z_in_iff t c) Htc). f_equal.
    assert (HNe : NoDup (map fst (ents f s k))).
    { rewrite (ents_fst (proj2 (@Hdata f Hf))). apply StronglySorted_NoDup_lt. exact (md_sorted (proj2 (@Hdata f Hf))). }
    etransitivity; [apply (@flat_map_one _ _ (fun e : entry => [fst e]) (fun e => if (fst e =? t)%Z then entry_sel ps (drows f s k) e else []) t (ents f s k) e)|now rewrite Hfe, Z.eqb_refl].
    + replace (flat_map (fun e : entry => [fst e]) (ents f s k)) with (map fst (ents f s k)); [exact HNe|].
      clear. induction (ents f s k) as [|x l IH]; simpl; [reflexivity|now rewrite IH].
    + intros x _ Hx. destruct (Z.eqb_spec (fst x) t); [|reflexivity]. exfalso. apply Hx. now left.
    + assumption.
    + now left.
  - intros Hn. apply flat_map_nil. intros fc Hfc. destruct (frames_at t (part_arr fc)) eqn:E; [reflexivity|].
    exfalso. destruct (Hwhere fc Hfc) as [A1 _]; [rewrite E; discriminate|]. apply Hn, in_concat. exists (snd fc).
    split; [apply Hin; assumption|assumption].
  - intros Hn. apply flat_map_nil. intros fc Hfc. destruct (frames_at t (part_arr fc)) eqn:E; [reflexivity|].
    exfalso. destruct (Hwhere fc Hfc) as [_ A2]; [rewrite E; discriminate|]. apply (Hn (fst fc)); [apply Hin; assumption|assumption].
Qed.
End D.
End C.
