(** The grid of all modules of a detector. *)
From Verif Require Import Base PyStr M_Files M_Machinery M_Reader M_Glob M_Select M_Series M_Stacking M_Components M_Grid
  S_Reader S_Coll S_Glob S_Select S_Avail S_Series S_Stacking S_Components S_Grid
  L_Base L_Machinery L_Reader L_Trains L_GetArray L_Select L_SelTrains L_Array2 L_Series L_Validation2
  L_Components L_Components2 L_Components3 L_Components4 L_Components5 L_Components6 L_Components7 L_Components8 L_Components9
  L_Components10 L_Components11 L_Components12 L_Grid L_Grid2.
Set Implicit Arguments. Unset Strict Implicit.
Local Open Scope string_scope.
Local Open Scope list_scope.

Lemma mapM_rel : forall A B C (f : A -> res B) (g : A -> res C) (R : B -> C -> Prop) l,
  (forall x, In x l -> match f x with Ok b => exists c, g x = Ok c /\ R b c | Err e => g x = Err e end) ->
  match mapM f l with Ok bs => exists cs, mapM g l = Ok cs /\ Forall2 R bs cs | Err e => mapM g l = Err e end.
Proof.
  intros A B C f g R l H. induction l as [|x l IH]; simpl; [exists []; split; [reflexivity|constructor]|].
  assert (Hx := H x (or_introl eq_refl)). destruct (f x) as [b|e]; simpl; [|now rewrite Hx].
  destruct Hx as (c & -> & Hc). simpl. assert (I := IH (fun y Hy => H y (or_intror Hy))).
  destruct (mapM f l) as [bs|e]; simpl; [|now rewrite I]. destruct I as (cs & -> & Hcs). simpl. exists (c :: cs). split; [reflexivity|now constructor].
Qed.
Lemma same_items_rel : forall A B (f : A -> list Z) (g : B -> list Z) l l', Forall2 (fun a b => f a = g b) l l' -> same_items f l = same_items g l'.
Proof.
  intros A B f g l l' H. destruct H as [|a b l l' E H]; [reflexivity|]. simpl. rewrite E. clear E. revert b.
  induction H as [|x y l l' E H IH]; intros b; [reflexivity|]. simpl. now rewrite E, IH.
Qed.
Lemma nth_combine : forall A B (l : list A) (l' : list B) i a b, nth_error l i = Some a -> nth_error l' i = Some b -> In (a, b) (combine l l').
Proof.
  induction l as [|x l IH]; intros [|y l'] [|i] a b H H'; simpl in *; try discriminate.
  - injection H as ->. injection H' as ->. now left.
  - right. eauto.
Qed.

Section C.
Context {V : Type}.
Notation faccess := (faccess V).
Notation dcoll := (dcoll V).
Context (first : V -> V) (pulse : V -> Z).
Context (tag : string) (d : dcoll) (nm : option string) (modules : option (list Z)) (min : Z) (m : mpx V).
Context (HD : detector_of tag d nm modules min m).
Let HM := detector_made HD.
Let G := proj1 (proj2 (proj2 HD)).

Lemma module_step : forall k arg ps, good_modules first pulse d m modules k -> check_pulse_selection arg = Ok ps ->
  forall sm, In sm (sorted_modules m) ->
  match (let* a := get_module_pulse_data first pulse m (fst sm) k ps in Ok (snd sm, a)) with
  | Ok b => exists c, (let* g := get_module_grid first pulse m (fst sm) k ps in Ok (snd sm, g)) = Ok c /\
              (fst c = fst b /\ gr_item (snd c) = ar_item (snd b) /\ grid_holds (snd c) (fun t p v => In (t, p, v) (ar_frames (snd b))))
  | Err e => (let* g := get_module_grid first pulse m (fst sm) k ps in Ok (snd sm, g)) = Err e
  end.
Proof.
  intros k arg ps HG Hps [s n] Hsm. cbn [fst snd]. apply (modules_of HM) in Hsm. destruct (HG s n Hsm) as [HF HL].
  destruct (chunks_ok HM) as (C1 & C2 & C3).
  assert (S := @module_grid_spec V first pulse m s k ps (fun f Hf => proj1 (fs_data HM HF Hf)) (fun f Hf => proj1 (proj2 (fs_data HM HF Hf)))
    (desired_nonneg Hps) C2 (fs_nodup G HM s) C3).
  destruct (get_module_pulse_data first pulse m s k ps) as [a|e]; cbn [bind]; [|now rewrite S].
  destruct S as (g & -> & Hi & Hg). exists (n, g). split; [reflexivity|]. auto.
Qed.

(** The frames of a module: those of the files. *)
Lemma frames_are : forall k arg l, good_modules first pulse d m modules k -> usable_sel arg -> starts_with "image." k = true ->
  det_get_array first pulse m k arg = Ok (ByPulse l) -> forall n a, In (n, a) l -> forall t p v,
  In (t, p, v) (ar_frames a) <-> det_frame first pulse d m modules k arg n t p v.
Proof.
  intros k arg l HG Hu Hk H n a Ha t p v.
  destruct (det_array_inv HD Hk H) as (ps & l0 & Hps & E0 & Hf & Hin). injection E0 as <-.
  destruct (Hin n a Ha) as (s & Hs & Hget).
  destruct (det_array_spec HD HG Hu Hk H) as (l' & El & _ & _ & X). injection El as <-. destruct (X s n a Hs Ha) as [X1 X2].
  destruct (HG s n Hs) as [HF HL].
  assert (E : In (t, p, v) (ar_frames a) <-> In (t, p, v) (frames_at t a)).
  { unfold frames_at. rewrite filter_In. cbn [fst]. rewrite Z.eqb_refl. tauto. }
  assert (Y : forall f pulses rows, In t (mx_train_ids m) -> holds d f s t -> train_frames first pulse f s k t pulses rows ->
    (In (t, p, v) (ar_frames a) <-> exists i, nth_error pulses i = Some p /\ nth_error rows i = Some v /\ chosen arg i p)).
  { intros f pulses rows Ht Hh Htr. destruct (X1 t f pulses rows Ht Hh Htr) as (ix & _ & I & F). rewrite E. split.
    - intros Hx. assert (Y : exists i, In i ix /\ exists p' v', nth_error pulses i = Some p' /\ nth_error rows i = Some v' /\ (t, p, v) = (t, p', v')).
      { clear -F Hx. induction F as [|i fr ix frs H F IH]; [destruct Hx|]. destruct Hx as [->|Hx]; [exists i; split; [now left|exact H]|].
        destruct (IH Hx) as (j & J1 & J2). exists j. split; [now right|exact J2]. }
      destruct Y as (i & Hi & p' & v' & Hp & Hv & Eq). injection Eq as <- <-. exists i. split; [assumption|]. split; [assumption|].
      apply I in Hi as (p' & Hp' & Hc). congruence.
    - intros (i & Hp & Hv & Hc). assert (Hi : In i ix) by (apply I; eauto). clear -F Hi Hp Hv.
      induction F as [|j fr ix frs H F IH]; [destruct Hi|]. destruct Hi as [->|Hi]; [|right; auto]. left.
      destruct H as (p' & v' & Hp' & Hv' & ->). congruence. }
  split.
  - intros Hx.
    assert (Ht : In t (mx_train_ids m)).
    { destruct (in_dec Z.eq_dec t (mx_train_ids m)); [assumption|]. exfalso. apply E in Hx. rewrite X2 in Hx; [exact Hx|]. tauto. }
    assert (Hh : exists f, holds d f s t).
    { destruct (existsb (fun f => z_in t (fa_tids f)) (source_files (dc_files (mx_data m)) s)) eqn:Ee.
      - apply existsb_exists in Ee as (f & Hf1 & Hf2). apply z_in_iff in Hf2. exists f. apply (det_holds HM Hs f Ht). auto.
      - exfalso. apply E in Hx. rewrite X2 in Hx; [exact Hx|]. intros [_ (f & Hh)]. apply (det_holds HM Hs f Ht) in Hh as [Hf1 Hf2].
        assert (existsb (fun f => z_in t (fa_tids f)) (source_files (dc_files (mx_data m)) s) = true); [|congruence].
        apply existsb_exists. exists f. split; [assumption|]. now apply z_in_iff. }
    destruct Hh as (f & Hh). destruct (proj2 (det_holds HM Hs f Ht) Hh) as [Hf1 Hf2].
    destruct (fs_data HM HF Hf1) as (_ & _ & Hmf & Ho). destruct (train_frames_exist first pulse Ho Hmf Hf2) as (pulses & rows & Htr).
    apply (Y f pulses rows Ht Hh Htr) in Hx as (i & Hi). exists s, f, pulses, rows, i. tauto.
  - intros (s' & f & pulses & rows & i & Hs' & Ht & Hh & Htr & Hi).
    assert (s' = s) by (eapply (module_unique HD); eassumption). subst s'. apply (Y f pulses rows Ht Hh Htr). eauto.
Qed.

Lemma grid_rel : forall k arg, good_modules first pulse d m modules k -> usable_sel arg -> starts_with "image." k = true ->
  match det_get_array first pulse m k arg with
  | Err e => det_get_grid first pulse m k arg = Err e
  | Ok r => exists l cs, r = ByPulse l /\ det_get_grid first pulse m k arg = (let* g := concat_modules cs in Ok (PulseGrid g)) /\
      same_items (fun p => gr_item (snd p)) cs = true /\
      Forall2 (fun b c => fst c = fst b /\ gr_item (snd c) = ar_item (snd b) /\ grid_holds (snd c) (fun t p v => In (t, p, v) (ar_frames (snd b)))) l cs
  end.
Proof.
  intros k arg HG Hu Hk. unfold det_get_array, det_get_grid. destruct (check_pulse_selection arg) as [ps|e] eqn:Hps; cbn [bind]; [|reflexivity].
  rewrite Hk. assert (M := mapM_rel (module_step HG Hps)).
  destruct (mapM (fun sm => let* a := get_module_pulse_data first pulse m (fst sm) k ps in Ok (snd sm, a)) (sorted_modules m)) as [l|e]; cbn [bind]; [|now rewrite M].
  destruct M as (cs & -> & HR). cbn [bind].
  assert (Es : same_items (fun p : Z * arr V => ar_item (snd p)) l = same_items (fun p : Z * grid V => gr_item (snd p)) cs).
  { apply same_items_rel. clear -HR. induction HR as [|b c l cs (_ & H & _) HR IH]; constructor; auto. }
  rewrite Es. destruct (same_items _ cs) eqn:Ei.
  - exists l, cs. auto.
  - unfold concat_modules. rewrite Ei. destruct (join_axis (map (fun p : Z * grid V => gr_trains (snd p)) cs)) as [ts|e] eqn:E1; cbn [bind]; [|apply join_axis_err in E1; now subst].
    destruct (join_axis (map (fun p : Z * grid V => gr_pulses (snd p)) cs)) as [qs|e] eqn:E2; cbn [bind]; [reflexivity|apply join_axis_err in E2; now subst].
Qed.

Theorem grid_spec : forall k arg, good_modules first pulse d m modules k -> usable_sel arg -> starts_with "image." k = true ->
  (forall e, det_get_array first pulse m k arg = Err e -> det_get_grid first pulse m k arg = Err e) /\
  (forall l, det_get_array first pulse m k arg = Ok l -> exists r, det_get_grid first pulse m k arg = Ok (PulseGrid r)) /\
  (forall r, det_get_grid first pulse m k arg = Ok r -> exists g, r = PulseGrid g /\
    StronglySorted Z.lt (dg_modules g) /\ StronglySorted Z.lt (dg_trains g) /\ StronglySorted Z.lt (dg_pulses g) /\
    (forall n, In n (dg_modules g) <-> exists s, is_module_of d (mx_name m) modules s n) /\
    (forall t, In t (dg_trains g) <-> exists n p v, det_frame first pulse d m modules k arg n t p v) /\
    (forall p, In p (dg_pulses g) <-> exists n t v, det_frame first pulse d m modules k arg n t p v) /\
    has_shape3 (dg_cells g) (List.length (dg_modules g)) (List.length (dg_trains g)) (List.length (dg_pulses g)) /\
    (forall i j l n t p, nth_error (dg_modules g) i = Some n -> nth_error (dg_trains g) j = Some t -> nth_error (dg_pulses g) l = Some p ->
       forall v, cell3 (dg_cells g) i j l = Some (Some v) <-> det_frame first pulse d m modules k arg n t p v)).
Proof.
  intros k arg HG Hu Hk. assert (RL := grid_rel HG Hu Hk). destruct (det_get_array first pulse m k arg) as [r0|e0] eqn:E0.
  - destruct RL as (l & cs & -> & Eg & Hi & HR).
    assert (Hfst : map fst cs = map fst l).
    { clear -HR. induction HR as [|b c l cs (H & _) HR IH]; [reflexivity|]. simpl. now rewrite H, IH. }
    destruct (det_array_spec HD HG Hu Hk E0) as (l' & El & Sm & Im & _). injection El as <-.
    assert (HN : NoDup (map fst cs)) by (rewrite Hfst; now apply StronglySorted_NoDup_lt).
    assert (HF : forall n g, In (n, g) cs -> grid_holds g (det_frame first pulse d m modules k arg n)).
    { intros n g Hg. destruct (Forall2_In_r HR Hg) as ([n' a] & Ha & (H1 & H2 & H3)). simpl in *. subst n'.
      assert (Q := frames_are HG Hu Hk E0 Ha). destruct H3 as [A1 A2 A3 A4 A5 A6]. constructor; try assumption.
      - intros t. rewrite A3. split; intros (p & v & H); exists p, v; now apply Q.
      - intros p. rewrite A4. split; intros (t & v & H); exists t, v; now apply Q.
      - intros t row p c Hr Hc v. rewrite (A6 t row p c Hr Hc v). apply Q. }
    destruct (concat_modules_spec HN HF) as [_ S]. destruct (S Hi) as (r & Er & R1 & R2 & R3 & R4 & R5 & R6 & R7). clear S.
    rewrite Er in Eg. cbn [bind] in Eg. split; [discriminate|]. split; [eauto|]. intros r1 E1. rewrite Eg in E1. injection E1 as <-. exists r.
    split; [reflexivity|]. rewrite R1, Hfst. split; [assumption|]. split; [assumption|]. split; [assumption|]. split; [assumption|].
    assert (Hn : forall n t p v, det_frame first pulse d m modules k arg n t p v -> In n (map fst cs)).
    { intros n t p v (s & _ & _ & _ & _ & Hs & _). rewrite Hfst. apply Im. eauto. }
    split; [|split; [|split]].
    + intros t. rewrite R4. split; [intros (n & p & v & _ & H); eauto|]. intros (n & p & v & H). exists n, p, v. split; [eapply Hn; exact H|exact H].
    + intros p. rewrite R5. split; [intros (n & t & v & _ & H); eauto|]. intros (n & t & v & H). exists n, t, v. split; [eapply Hn; exact H|exact H].
    + assert (Hpl : forall plane, In plane (dg_cells r) -> exists n, In (n, plane) (combine (map fst cs) (dg_cells r))).
      { intros plane Hp. apply In_nth_error in Hp as (i & Hp). destruct (nth_error (map fst cs) i) as [n|] eqn:En.
        - exists n. eapply nth_combine; eassumption.
        - exfalso. apply nth_error_None in En. rewrite map_length in En. assert (i < List.length (dg_cells r))%nat by (apply nth_error_Some; congruence). lia. }
      split; [rewrite R6, <- Hfst; now rewrite map_length|]. intros plane Hp. destruct (Hpl plane Hp) as (n & Hnp). destruct (R7 n plane Hnp) as [L1 L2].
      split; [assumption|]. intros row Hr. apply In_nth_error in Hr as (j & Hr). destruct (nth_error (dg_trains r) j) as [t|] eqn:Et.
      * exact (proj1 (L2 t row (nth_combine Et Hr))).
      * exfalso. apply nth_error_None in Et. assert (j < List.length plane)%nat by (apply nth_error_Some; congruence). lia.
    + intros i j l0 n t p Hni Htj Hpl v. rewrite <- Hfst in Hni. unfold cell3.
      destruct (nth_error (dg_cells r) i) as [plane|] eqn:Ei; [|exfalso; apply nth_error_None in Ei; assert (i < List.length (map fst cs))%nat by (apply nth_error_Some; congruence); rewrite map_length in *; lia].
      destruct (R7 n plane (nth_combine Hni Ei)) as [L1 L2].
      destruct (nth_error plane j) as [row|] eqn:Ej; [|exfalso; apply nth_error_None in Ej; assert (j < List.length (dg_trains r))%nat by (apply nth_error_Some; congruence); lia].
      destruct (L2 t row (nth_combine Htj Ej)) as [L3 L4].
      destruct (nth_error row l0) as [c|] eqn:El0; [|exfalso; apply nth_error_None in El0; assert (l0 < List.length (dg_pulses r))%nat by (apply nth_error_Some; congruence); lia].
      rewrite <- (L4 p c (nth_combine Hpl El0) v). split; [congruence|]. intros ->. reflexivity.
  - split; [intros e He; injection He as <-; exact RL|]. split; [discriminate|]. intros r H. rewrite RL in H. discriminate.
Qed.

(** ** Data with one value per train *)
Lemma align_same : forall A (fill : A) old vals, align fill old old vals = vals.
Proof. intros. unfold align. rewrite (proj2 (zlist_eqb_iff old old) eq_refl). reflexivity. Qed.
Lemma combine_nth : forall A B (l : list A) (l' : list B) a b, In (a, b) (combine l l') -> exists i, nth_error l i = Some a /\ nth_error l' i = Some b.
Proof.
  induction l as [|x l IH]; intros [|y l'] a b H; simpl in *; try contradiction. destruct H as [E|H].
  - injection E as <- <-. exists 0%nat. auto.
  - destruct (IH _ _ _ H) as (i & I). exists (S i). exact I.
Qed.
Lemma nth_combine_iff : forall A B (l : list A) (l' : list B) i a b, nth_error (combine l l') i = Some (a, b) <-> nth_error l i = Some a /\ nth_error l' i = Some b.
Proof.
  induction l as [|x l IH]; intros [|y l'] [|i] a b; simpl; split; try (intros H; destruct H; discriminate); try discriminate.
  - intros H. injection H as <- <-. auto.
  - intros [H H']. injection H as <-. injection H' as <-. reflexivity.
  - apply IH.
  - apply IH.
Qed.

Lemma slow_inv : forall k ms l, mapM (fun sm : string * Z => let* a := get_array (mx_data m) (fst sm) k in Ok (snd sm, a)) ms = Ok l ->
  map fst l = map snd ms /\ (forall n a, In (n, a) l -> exists s, In (s, n) ms /\ get_array (mx_data m) s k = Ok a) /\
  (forall s n, In (s, n) ms -> exists a, In (n, a) l /\ get_array (mx_data m) s k = Ok a).
Proof.
  intros k ms l H. apply mapM_ok_iff in H. induction H as [|[s n] y ms l H Hl IH].
  - repeat split; intros; contradiction.
  - apply bind_ok in H as (a & Ha & H). injection H as <-. cbn [fst snd] in *. destruct IH as (I1 & I2 & I3). split; [simpl; now rewrite I1|]. split.
    + intros n' a' [E|H]; [injection E as <- <-; exists s; split; [now left|assumption]|]. destruct (I2 _ _ H) as (s' & J1 & J2). exists s'. split; [now right|assumption].
    + intros s' n' [E|H]; [injection E as <- <-; exists a; split; [now left|assumption]|]. destruct (I3 _ _ H) as (a' & J1 & J2). exists a'. split; [now right|assumption].
Qed.
Lemma join_axis_cases : forall l r, join_axis l = Ok r ->
  ((forall a, In a l -> a = r) \/ (StronglySorted Z.lt r /\ forall a, In a l -> NoDup a)) /\ forall x, In x r <-> exists a, In a l /\ In x a.
Proof.
  intros [|a l] r H.
  - injection H as <-. split; [left; intros a []|]. intros x. split; [intros []|intros (? & [] & _)].
  - unfold join_axis in H. destruct (forallb (zlist_eqb a) l) eqn:E.
    + injection H as <-. rewrite forallb_forall in E. assert (X : forall b, In b (a :: l) -> b = a).
      { intros b [<-|Hb]; [reflexivity|]. apply E, zlist_eqb_iff in Hb. auto. }
      split; [auto|]. intros x. split; [intros Hx; exists a; split; [now left|assumption]|]. intros (b & Hb & Hx). apply X in Hb. now subst.
    + destruct (forallb z_unique (a :: l)) eqn:U; [|discriminate]. injection H as <-. split.
      * right. split; [apply zsort_set_sorted|]. intros b Hb. rewrite forallb_forall in U. apply z_unique_iff. auto.
      * intros x. rewrite zsort_set_In. change (a ++ List.concat l) with (List.concat (a :: l)). rewrite in_concat. reflexivity.
Qed.
Lemma first_item_same : forall A (item : A -> list Z) l, same_items item l = true -> forall x, In x l -> item x = first_item item l.
Proof.
  intros A item [|a l] H x Hx; [destruct Hx|]. simpl in *. destruct Hx as [->|Hx]; [reflexivity|]. rewrite forallb_forall in H. apply H in Hx.
  apply zlist_eqb_iff in Hx. auto.
Qed.
Notation slow s k a := (get_array (mx_data m) s k = Ok a).
Notation mod_ s n := (is_module_of d (mx_name m) modules s n).

Theorem train_grid_spec : forall k arg r, starts_with "image." k = false -> det_get_grid first pulse m k arg = Ok r ->
  exists g, r = TrainGrid g /\ StronglySorted Z.lt (tg_modules g) /\
    (forall n, In n (tg_modules g) <-> exists s, mod_ s n) /\
    (forall s n, mod_ s n -> exists a, slow s k a /\ la_item a = tg_item g) /\
    (forall t, In t (tg_trains g) <-> exists s n a, mod_ s n /\ slow s k a /\ In t (la_labels a)) /\
    ((forall s n a, mod_ s n -> slow s k a -> la_labels a = tg_trains g) \/
     (StronglySorted Z.lt (tg_trains g) /\ forall s n a, mod_ s n -> slow s k a -> NoDup (la_labels a))) /\
    has_shape2 (tg_cells g) (List.length (tg_modules g)) (List.length (tg_trains g)) /\
    (forall i n s a, nth_error (tg_modules g) i = Some n -> mod_ s n -> slow s k a ->
      (la_labels a = tg_trains g -> forall j, cell2 (tg_cells g) i j = option_map Some (nth_error (la_rows a) j)) /\
      (NoDup (la_labels a) -> forall j t, nth_error (tg_trains g) j = Some t -> forall v,
         cell2 (tg_cells g) i j = Some (Some v) <-> exists q, nth_error (la_labels a) q = Some t /\ nth_error (la_rows a) q = Some v)).
Proof.
  intros k arg r Hk H. unfold det_get_grid in H. apply bind_ok in H as (ps & _ & H). rewrite Hk in H.
  apply bind_ok in H as (l & Hl & H). apply bind_ok in H as (g & Hg & H). injection H as <-. exists g. split; [reflexivity|].
  apply slow_inv in Hl as (L1 & L2 & L3). unfold concat_train_modules in Hg. apply bind_ok in Hg as (ts & Hts & Hg).
  destruct (existsb _ l && negb (forallb _ l)); [discriminate|].
  destruct (same_items _ l) eqn:Ei; [|discriminate]. injection Hg as <-. cbn [tg_modules tg_trains tg_cells tg_item].
  apply join_axis_cases in Hts as [Hc HI].
  assert (La : forall s n a, mod_ s n -> slow s k a -> In (n, a) l).
  { intros s n a Hs Ha. apply (modules_of HM) in Hs. destruct (L3 s n Hs) as (a' & J1 & J2). rewrite Ha in J2. injection J2 as <-. assumption. }
  assert (Lm : forall n a, In (n, a) l -> exists s, mod_ s n /\ slow s k a).
  { intros n a Hn. destruct (L2 n a Hn) as (s & J1 & J2). exists s. split; [now apply (modules_of HM)|assumption]. }
  split; [rewrite L1; exact (modules_sorted HM)|]. split; [|split; [|split; [|split; [|split]]]].
  - intros n. rewrite L1, in_map_iff. split.
    + intros ([s n'] & <- & Hx). exists s. now apply (modules_of HM).
    + intros (s & Hs). exists (s, n). split; [reflexivity|]. now apply (modules_of HM).
  - intros s n Hs. assert (Hs' := Hs). apply (modules_of HM) in Hs'. destruct (L3 s n Hs') as (a & J1 & J2). exists a. split; [assumption|].
    exact (first_item_same Ei J1).
  - intros t. rewrite HI. split.
    + intros (b & Hb & Ht). apply in_map_iff in Hb as ([n a] & <- & Ha). destruct (Lm n a Ha) as (s & J1 & J2). exists s, n, a. auto.
    + intros (s & n & a & Hs & Ha & Ht). exists (la_labels a). split; [|assumption]. apply in_map_iff. exists (n, a). split; [reflexivity|eauto].
  - destruct Hc as [Hc|[Hc1 Hc2]]; [left|right; split; [assumption|]]; intros s n a Hs Ha; [apply Hc|apply Hc2]; apply in_map_iff; exists (n, a); (split; [reflexivity|eauto]).
  - split; [now rewrite !map_length|]. intros row Hr. apply in_map_iff in Hr as ([n a] & <- & Ha). cbn [snd]. apply align_length. rewrite map_length.
    destruct (Lm n a Ha) as (s & _ & J2). symmetry. exact (get_array_lengths J2).
  - intros i n s a Hn Hs Ha.
    assert (Hrow : nth_error (map (fun p : Z * larray V => align None (la_labels (snd p)) ts (map Some (la_rows (snd p)))) l) i = Some (align None (la_labels a) ts (map Some (la_rows a)))).
    { rewrite nth_error_map in Hn. destruct (nth_error l i) as [[n' a']|] eqn:En; [|discriminate]. simpl in Hn. injection Hn as ->.
      rewrite (map_nth_error _ _ _ En). cbn [snd]. apply nth_error_In in En. destruct (Lm n a' En) as (s' & J1 & J2).
      assert (s' = s) by (eapply (module_unique HD); eassumption). subst s'. congruence. }
    assert (HL := get_array_lengths Ha). unfold cell2. rewrite Hrow. split.
    + intros E j. rewrite E, align_same. apply nth_error_map.
    + intros HN j t Ht v. assert (HL' : List.length (map Some (la_rows a)) = List.length (la_labels a)) by now rewrite map_length.
      destruct (nth_error (align None (la_labels a) ts (map Some (la_rows a))) j) as [c|] eqn:Ec.
      2: { exfalso. apply nth_error_None in Ec. rewrite align_length in Ec by assumption. assert (j < List.length ts)%nat by (apply nth_error_Some; congruence). lia. }
      assert (Hin := nth_combine Ht Ec). apply align_spec in Hin; [|assumption|assumption]. destruct Hin as [Hin|[Hin ->]].
      * apply combine_nth in Hin as (q & Q1 & Q2). rewrite nth_error_map in Q2. destruct (nth_error (la_rows a) q) as [w|] eqn:Eq; [|discriminate]. simpl in Q2. injection Q2 as <-.
        split; [intros E; injection E as <-; eauto|]. intros (q' & Q3 & Q4). f_equal. f_equal.
        assert (q = q'); [|subst; congruence]. rewrite NoDup_nth_error in HN. apply HN; [apply nth_error_Some; congruence|congruence].
      * split; [discriminate|]. intros (q & Q1 & _). exfalso. apply Hin. eapply nth_error_In; exact Q1.
Qed.

Theorem train_grid_accepts : forall k arg item, usable_sel arg -> starts_with "image." k = false ->
  (forall s n, mod_ s n -> exists a, slow s k a /\ la_item a = item) ->
  ((forall s n a, mod_ s n -> slow s k a -> la_labels a <> []) \/ (forall s n a, mod_ s n -> slow s k a -> la_labels a = [])) ->
  ((exists L, forall s n a, mod_ s n -> slow s k a -> la_labels a = L) \/ (forall s n a, mod_ s n -> slow s k a -> NoDup (la_labels a))) ->
  exists r, det_get_grid first pulse m k arg = Ok r.
Proof.
  intros k arg item Hu Hk Hall He Hc. unfold det_get_grid. destruct (proj1 (check_sel_outcomes arg) Hu) as (ps & ->). cbn [bind]. rewrite Hk.
  assert (X : exists l, mapM (fun sm : string * Z => let* a := get_array (mx_data m) (fst sm) k in Ok (snd sm, a)) (sorted_modules m) = Ok l).
  { apply mapM_total. intros [s n] Hs. apply (modules_of HM) in Hs. destruct (Hall s n Hs) as (a & Ha & _). simpl. rewrite Ha. simpl. eauto. }
  destruct X as (l & Hl). rewrite Hl. cbn [bind]. apply slow_inv in Hl as (L1 & L2 & L3).
  assert (Lm : forall n a, In (n, a) l -> exists s, mod_ s n /\ slow s k a).
  { intros n a Hn. destruct (L2 n a Hn) as (s & J1 & J2). exists s. split; [now apply (modules_of HM)|assumption]. }
  unfold concat_train_modules.
  assert (J : exists ts, join_axis (map (fun p : Z * larray V => la_labels (snd p)) l) = Ok ts).
  { destruct l as [|[n a] l]; [simpl; eauto|]. cbn [map snd]. unfold join_axis. destruct (forallb (zlist_eqb (la_labels a)) _) eqn:E; [eauto|].
    destruct Hc as [(L & Hc)|Hc].
    - exfalso. assert (forallb (zlist_eqb (la_labels a)) (map (fun p : Z * larray V => la_labels (snd p)) l) = true); [|congruence].
      apply forallb_forall. intros b Hb. apply in_map_iff in Hb as ([n' a'] & <- & Hb). apply zlist_eqb_iff. cbn [snd].
      destruct (Lm n a (or_introl eq_refl)) as (s & J1 & J2). destruct (Lm n' a' (or_intror Hb)) as (s' & J1' & J2').
      rewrite (Hc s n a J1 J2), (Hc s' n' a' J1' J2'). reflexivity.
    - destruct (forallb z_unique _) eqn:U; [eauto|]. exfalso. match type of U with ?x = _ => assert (x = true); [|congruence] end.
      apply forallb_forall. intros b Hb. apply z_unique_iff. destruct Hb as [<-|Hb].
      + destruct (Lm n a (or_introl eq_refl)) as (s & J1 & J2). eauto.
      + apply in_map_iff in Hb as ([n' a'] & <- & Hb). destruct (Lm n' a' (or_intror Hb)) as (s' & J1' & J2'). simpl. eauto. }
  destruct J as (ts & ->). cbn [bind].
  assert (E0 : existsb (@no_rows V) l && negb (forallb (@no_rows V) l) = false).
  { destruct He as [He|He].
    - replace (existsb (@no_rows V) l) with false; [reflexivity|]. symmetry. apply not_true_iff_false. intros X. apply existsb_exists in X as ([n a] & Hx & X).
      destruct (Lm n a Hx) as (s & J1 & J2). apply (He s n a J1 J2). unfold no_rows in X. cbn [snd] in X. destruct (la_labels a); [reflexivity|discriminate].
    - replace (forallb (@no_rows V) l) with true; [now rewrite andb_false_r|]. symmetry. apply forallb_forall. intros [n a] Hx.
      destruct (Lm n a Hx) as (s & J1 & J2). unfold no_rows. cbn [snd]. now rewrite (He s n a J1 J2). }
  rewrite E0.
  assert (I : same_items (fun p : Z * larray V => la_item (snd p)) l = true).
  { assert (Hi : forall x, In x l -> la_item (snd x) = item).
    { intros [n a] Hx. destruct (Lm n a Hx) as (s & J1 & J2). destruct (Hall s n J1) as (a' & J3 & J4). simpl. congruence. }
    destruct l as [|x l]; [reflexivity|]. simpl. apply forallb_forall. intros y Hy. apply zlist_eqb_iff. rewrite (Hi x (or_introl eq_refl)). symmetry. apply Hi. now right. }
  rewrite I. cbn [bind]. eauto.
Qed.
Theorem train_grid_refused : forall k arg s n a s' n' a', usable_sel arg -> starts_with "image." k = false ->
  mod_ s n -> slow s k a -> ~ NoDup (la_labels a) -> mod_ s' n' -> slow s' k a' -> la_labels a <> la_labels a' ->
  (forall s n, mod_ s n -> exists a, slow s k a) ->
  det_get_grid first pulse m k arg = Err EValueError.
Proof.
  intros k arg s n a s' n' a' Hu Hk Hs Ha Hn Hs' Ha' Hne Hall.
  destruct (det_get_grid first pulse m k arg) as [r|e] eqn:E.
  - exfalso. destruct (train_grid_spec Hk E) as (g & _ & _ & _ & _ & _ & [C|[_ C]] & _).
    + apply Hne. rewrite (C s n a Hs Ha), (C s' n' a' Hs' Ha'). reflexivity.
    + exact (Hn (C s n a Hs Ha)).
  - f_equal. unfold det_get_grid in E. destruct (proj1 (check_sel_outcomes arg) Hu) as (ps & Hps). rewrite Hps in E. cbn [bind] in E. rewrite Hk in E.
    assert (X : exists l, mapM (fun sm : string * Z => let* a := get_array (mx_data m) (fst sm) k in Ok (snd sm, a)) (sorted_modules m) = Ok l).
    { apply mapM_total. intros [s1 n1] Hs1. apply (modules_of HM) in Hs1. destruct (Hall s1 n1 Hs1) as (a1 & Ha1). simpl. rewrite Ha1. simpl. eauto. }
    destruct X as (l & Hl). rewrite Hl in E. cbn [bind] in E. unfold concat_train_modules in E.
    destruct (join_axis _) as [ts|e'] eqn:Ej; cbn [bind] in E; [|apply join_axis_err in Ej; congruence].
    destruct (existsb _ l && negb (forallb _ l)); cbn [bind] in E; [congruence|].
    destruct (same_items _ l); cbn [bind] in E; [discriminate|congruence].
Qed.
Theorem train_grid_empty : forall k arg s n a s' n' a', usable_sel arg -> starts_with "image." k = false ->
  mod_ s n -> slow s k a -> la_rows a = [] -> mod_ s' n' -> slow s' k a' -> la_rows a' <> [] ->
  (forall s n, mod_ s n -> exists a, slow s k a) ->
  det_get_grid first pulse m k arg = Err EValueError.
Proof.
  intros k arg s n a s' n' a' Hu Hk Hs Ha Hn Hs' Ha' Hne Hall.
  unfold det_get_grid. destruct (proj1 (check_sel_outcomes arg) Hu) as (ps & ->). cbn [bind]. rewrite Hk.
  assert (X : exists l, mapM (fun sm : string * Z => let* a := get_array (mx_data m) (fst sm) k in Ok (snd sm, a)) (sorted_modules m) = Ok l).
  { apply mapM_total. intros [s1 n1] Hs1. apply (modules_of HM) in Hs1. destruct (Hall s1 n1 Hs1) as (a1 & Ha1). simpl. rewrite Ha1. simpl. eauto. }
  destruct X as (l & Hl). rewrite Hl. cbn [bind]. apply slow_inv in Hl as (_ & _ & L3). unfold concat_train_modules.
  destruct (join_axis _) as [ts|e'] eqn:Ej; cbn [bind]; [|apply join_axis_err in Ej; now subst].
  assert (I1 : In (n, a) l). { apply (modules_of HM) in Hs. destruct (L3 s n Hs) as (b & J1 & J2). congruence. }
  assert (I2 : In (n', a') l). { apply (modules_of HM) in Hs'. destruct (L3 s' n' Hs') as (b & J1 & J2). congruence. }
  assert (N1 : la_labels a = []). { assert (L := get_array_lengths Ha). rewrite Hn in L. now destruct (la_labels a). }
  assert (N2 : la_labels a' <> []). { intros E. assert (L := get_array_lengths Ha'). rewrite E in L. now destruct (la_rows a'). }
  replace (existsb (@no_rows V) l) with true by (symmetry; apply existsb_exists; exists (n, a); split; [assumption|]; unfold no_rows; cbn [snd]; now rewrite N1).
  replace (forallb (@no_rows V) l) with false; [reflexivity|]. symmetry. apply not_true_iff_false. intros X. rewrite forallb_forall in X. specialize (X _ I2).
  unfold no_rows in X. cbn [snd] in X. destruct (la_labels a'); [congruence|discriminate].
Qed.
Theorem train_parts : forall k arg, usable_sel arg -> starts_with "image." k = false ->
  (forall s n, mod_ s n -> exists a, slow s k a) ->
  ((exists item, forall s n a, mod_ s n -> slow s k a -> la_item a = item) ->
     exists l, det_get_array first pulse m k arg = Ok (ByTrain l) /\ StronglySorted Z.lt (map fst l) /\
       forall n a, In (n, a) l <-> exists s, mod_ s n /\ slow s k a) /\
  ((exists s n a s' n' a', mod_ s n /\ slow s k a /\ mod_ s' n' /\ slow s' k a' /\ la_item a <> la_item a') ->
     det_get_array first pulse m k arg = Err EValueError /\ det_get_grid first pulse m k arg = Err EValueError).
Proof.
  intros k arg Hu Hk Hall. unfold det_get_array, det_get_grid. destruct (proj1 (check_sel_outcomes arg) Hu) as (ps & ->). cbn [bind]. rewrite Hk.
  assert (X : exists l, mapM (fun sm : string * Z => let* a := get_array (mx_data m) (fst sm) k in Ok (snd sm, a)) (sorted_modules m) = Ok l).
  { apply mapM_total. intros [s n] Hs. apply (modules_of HM) in Hs. destruct (Hall s n Hs) as (a & Ha). simpl. rewrite Ha. simpl. eauto. }
  destruct X as (l & Hl). rewrite Hl. cbn [bind]. apply slow_inv in Hl as (L1 & L2 & L3).
  assert (Lm : forall n a, In (n, a) l <-> exists s, mod_ s n /\ slow s k a).
  { intros n a. split.
    - intros Hn. destruct (L2 n a Hn) as (s & J1 & J2). exists s. split; [now apply (modules_of HM)|assumption].
    - intros (s & J1 & J2). apply (modules_of HM) in J1. destruct (L3 s n J1) as (a' & J3 & J4). congruence. }
  assert (Ls : same_items (fun p : Z * larray V => la_item (snd p)) l = true <-> forall x y, In x l -> In y l -> la_item (snd x) = la_item (snd y)).
  { split; [intros H x y Hx Hy; rewrite (first_item_same H Hx), (first_item_same H Hy); reflexivity|]. intros H. destruct l as [|x l]; [reflexivity|].
    simpl. apply forallb_forall. intros y Hy. apply zlist_eqb_iff. apply H; [now left|now right]. }
  split.
  - intros (item & Hi). exists l. split; [|split; [rewrite L1; apply (modules_sorted HM)|exact Lm]].
    replace (same_items _ l) with true; [reflexivity|]. symmetry. apply Ls. intros [n a] [n' a'] Hx Hy. apply Lm in Hx as (s & A1 & A2). apply Lm in Hy as (s' & B1 & B2).
    cbn [snd]. rewrite (Hi s n a A1 A2), (Hi s' n' a' B1 B2). reflexivity.
  - intros (s & n & a & s' & n' & a' & A1 & A2 & B1 & B2 & Hne).
    assert (F : same_items (fun p : Z * larray V => la_item (snd p)) l = false).
    { destruct (same_items _ l) eqn:E; [|reflexivity]. exfalso. apply Hne. refine (proj1 Ls eq_refl (n, a) (n', a') _ _); apply Lm; eauto. }
    rewrite F. split; [reflexivity|]. unfold concat_train_modules. rewrite F. destruct (join_axis _) as [ts|e] eqn:Ej; [cbn [bind]; now destruct (existsb _ l && negb (forallb _ l))|]. apply join_axis_err in Ej. subst. reflexivity.
Qed.
End C.
