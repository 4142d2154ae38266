(** The detector interface: results for users. *)
From Verif Require Import Base PyStr M_Files M_Machinery M_Reader M_Glob M_Select M_Series M_Stacking M_Components
  S_Reader S_Coll S_Glob S_Select S_Avail S_Series S_Stacking S_Components
  L_Base L_Machinery L_Reader L_GetArray L_Select L_Trains L_SelTrains L_Array2 L_Sel2 L_Hist L_Series L_Writer5
  L_Components L_Components2 L_Components3 L_Components4 L_Components5 L_Components6 L_Components7 L_Components8 L_Components9 L_Components10 L_Components11.
Set Implicit Arguments. Unset Strict Implicit.
Local Open Scope string_scope.
Local Open Scope list_scope.

(** ** Pulse selections *)
Lemma check_sel_outcomes : forall a,
  (usable_sel a -> exists ps, check_pulse_selection a = Ok ps) /\
  (forall ps, check_pulse_selection a = Ok ps -> match a with
     | PulsesById (PvInt _) | PulsesByIndex (PvInt _) | PulsesById (PvList _) | PulsesByIndex (PvList _) => True
     | _ => usable_sel a end).
Proof.
  assert (P : forall v, (usable_val v -> exists p, check_pulse_val v = Ok p) /\
    (forall p, check_pulse_val v = Ok p -> match v with PvInt _ | PvList _ => True | _ => usable_val v end)).
  { intros [st sp step| |x|l]; (split; [intros H|intros p H]); simpl in *; try (eauto; fail); try exact I; try discriminate; try contradiction.
    - destruct H as (H1 & H2 & H3). destruct (_ <? 1)%Z eqn:E; [destruct step; lia|]. destruct (_ || _) eqn:E2; [|eauto].
      apply orb_true_iff in E2. destruct st, sp; unfold MAX_PULSES in *; lia.
    - destruct (_ <? 1)%Z eqn:E; [discriminate|]. destruct (_ || _) eqn:E2; [discriminate|]. apply orb_false_iff in E2. destruct st, sp, step; lia. }
  intros [v|v|]; destruct (P v) as [P1 P2] || idtac; simpl.
  - split; [intros H; destruct (P1 H) as [p ->]; simpl; eauto|]. intros ps H. apply bind_ok in H as (p & H & _). specialize (P2 p H). destruct v; auto.
  - split; [intros H; destruct (P1 H) as [p ->]; simpl; eauto|]. intros ps H. apply bind_ok in H as (p & H & _). specialize (P2 p H). destruct v; auto.
  - split; [intros []|discriminate].
Qed.

Section C.
Context {V : Type}.
Notation faccess := (faccess V).
Notation dcoll := (dcoll V).
Context (first : V -> V) (pulse : V -> Z) (h5_empty : bool).

Lemma detector_named : forall tag (d : dcoll) nm modules min m, mpx_open tag d nm modules min = Ok m ->
  mpx_open tag d (Some (mx_name m)) modules min = Ok m /\ (forall n, nm = Some n -> mx_name m = n) /\ (nm = None -> find_detector_name tag d = Ok (mx_name m)).
Proof.
  intros tag d nm modules min m H. unfold mpx_open in H. apply bind_ok in H as (n & Hn & H).
  assert (E : mx_name m = n).
  { repeat (apply bind_ok in H as (? & _ & H)). destruct (z_unique _); [|discriminate]. injection H as <-. reflexivity. }
  split; [|split].
  - unfold mpx_open. cbn [bind]. rewrite E. exact H.
  - intros n' ->. injection Hn as ->. exact E.
  - intros ->. now rewrite E.
Qed.
Lemma detector_made : forall tag (d : dcoll) nm modules min m, detector_of tag d nm modules min m -> made d (mx_name m) modules min m.
Proof.
  intros tag d nm modules min m (R & K & G & C & H). apply detector_named in H as (H & _). exact (open_inv R K G C H).
Qed.
(** The name found. *)
Lemma find_name_spec : forall tag (d : dcoll),
  let has p := exists s, In s (dc_inst d) /\ det_name tag s p in
  match find_detector_name tag d with
  | Ok p => has p /\ forall q, has q -> q = p
  | Err e => (e = ESourceNameError /\ forall p, ~ has p) \/ (e = EValueError /\ exists p q, has p /\ has q /\ p <> q)
  end.
Proof.
  intros tag d has. unfold find_detector_name.
  set (names := fold_left _ (dc_inst d) []).
  assert (N : (forall p, In p names <-> has p) /\ NoDup names).
  { unfold names, has. assert (X : forall l acc, NoDup acc ->
      (forall p, In p (fold_left (fun acc s => match match_detname tag s with Some n => set_add n acc | None => acc end) l acc) <-> In p acc \/ exists s, In s l /\ det_name tag s p) /\
      NoDup (fold_left (fun acc s => match match_detname tag s with Some n => set_add n acc | None => acc end) l acc)).
    { induction l as [|s l IH]; intros acc Ha; simpl.
      - split; [|assumption]. intros p. split; [auto|intros [H|(? & [] & _)]; auto].
      - destruct (match_detname tag s) as [n|] eqn:E.
        + destruct (IH (set_add n acc) (set_add_NoDup _ Ha)) as [I1 I2]. split; [|assumption]. intros p. rewrite I1, set_add_In. apply match_detname_spec in E. split.
          * intros [[->|H]|(s' & H & H')]; [right; exists s; auto|auto|right; exists s'; auto].
          * intros [H|(s' & [<-|H] & H')]; [auto| |right; eauto]. left. left. apply match_detname_spec in H'. apply match_detname_spec in E. congruence.
        + destruct (IH acc Ha) as [I1 I2]. split; [|assumption]. intros p. rewrite I1. split.
          * intros [H|(s' & H & H')]; [auto|right; exists s'; auto].
          * intros [H|(s' & [<-|H] & H')]; [auto| |right; eauto]. apply match_detname_spec in H'. congruence. }
    destruct (X (dc_inst d) [] (NoDup_nil _)) as [X1 X2]. split; [|assumption]. intros p. rewrite X1. simpl. tauto. }
  destruct N as [N1 N2]. destruct names as [|p [|q r]].
  - left. split; [reflexivity|]. intros p H. apply N1 in H. exact H.
  - split; [apply N1; now left|]. intros q H. apply N1 in H as [->|[]]. reflexivity.
  - right. split; [reflexivity|]. exists p, q. split; [apply N1; now left|]. split; [apply N1; right; now left|]. inversion N2; subst. simpl in *. intuition.
Qed.

(** The modules of the detector. *)
Lemma modules_of : forall (d : dcoll) name modules min m, made d name modules min m -> forall s n,
  In (s, n) (sorted_modules m) <-> is_module_of d name modules s n.
Proof.
  intros d name modules min m HM s n. rewrite <- module_list_In, <- (mk_mods HM). unfold sorted_modules.
  split; apply Permutation_in; [symmetry|]; apply sort_key_perm.
Qed.
Lemma modules_sorted : forall (d : dcoll) name modules min m, made d name modules min m -> StronglySorted Z.lt (map snd (sorted_modules m)).
Proof.
  intros d name modules min m HM.
  assert (N : NoDup (map snd (sorted_modules m))).
  { eapply Permutation_NoDup; [apply Permutation_map, sort_key_perm|]. rewrite (mk_mods HM). exact (mk_nodup HM). }
  pose proof (sort_key_sorted snd (mx_modules m)) as S. fold (sorted_modules m) in S. revert N. induction S as [|x l Hl IH Hx]; intros N; simpl; constructor.
  - apply IH. now inversion N.
  - rewrite Forall_map. simpl in N. apply NoDup_cons_iff in N as [N _]. rewrite Forall_forall in *. intros y Hy. specialize (Hx y Hy).
    assert (snd x <> snd y); [|lia]. intros E. apply N. rewrite E. now apply in_map.
Qed.

Section M.
Context (tag : string) (d : dcoll) (nm : option string) (modules : option (list Z)) (min : Z) (m : mpx V).
Context (HD : detector_of tag d nm modules min m).
Let HM := detector_made HD.
Let R := proj1 HD.
Let K := proj1 (proj2 HD).
Let G := proj1 (proj2 (proj2 HD)).

Lemma det_array_inv : forall k arg r, starts_with "image." k = true -> det_get_array first pulse m k arg = Ok r ->
  exists ps l, check_pulse_selection arg = Ok ps /\ r = ByPulse l /\ map fst l = map snd (sorted_modules m) /\
    (forall n a, In (n, a) l -> exists s, is_module_of d (mx_name m) modules s n /\ get_module_pulse_data first pulse m s k ps = Ok a).
Proof.
  intros k arg r Hk H. unfold det_get_array in H. apply bind_ok in H as (ps & Hps & H). rewrite Hk in H. apply bind_ok in H as (l & Hl & H).
  destruct (same_items _ l); [|discriminate]. injection H as <-. exists ps, l. split; [assumption|]. split; [reflexivity|]. apply mapM_ok_iff in Hl. split.
  - clear -Hl. induction Hl as [|x y l l' H Hl IH]; [reflexivity|]. simpl. apply bind_ok in H as (a & _ & H). injection H as <-. simpl. now rewrite IH.
  - intros n a Hin. assert (X : exists s, In (s, n) (sorted_modules m) /\ get_module_pulse_data first pulse m s k ps = Ok a).
    { clear -Hl Hin. induction Hl as [|[s0 n0] y l l' H Hl IH]; [destruct Hin|]. destruct Hin as [E|Hin].
      - apply bind_ok in H as (a' & Ha & H). injection H as <-. injection E as <- <-. exists s0. split; [now left|assumption].
      - destruct (IH Hin) as (s & I1 & I2). exists s. split; [now right|assumption]. }
    destruct X as (s & X1 & X2). exists s. split; [|assumption]. apply (modules_of HM). exact X1.
Qed.
Lemma module_unique : forall s s' n, is_module_of d (mx_name m) modules s n -> is_module_of d (mx_name m) modules s' n -> s = s'.
Proof.
  intros s s' n H H'. apply (modules_of HM) in H. apply (modules_of HM) in H'.
  assert (N := StronglySorted_NoDup_lt (modules_sorted HM)). assert (X := NoDup_map_inj N H H' eq_refl). congruence.
Qed.
(** What get_array returns for pulse data. *)
Lemma det_array_spec : forall k arg r, good_modules first pulse d m modules k -> usable_sel arg -> starts_with "image." k = true ->
  det_get_array first pulse m k arg = Ok r ->
  exists l, r = ByPulse l /\ StronglySorted Z.lt (map fst l) /\
    (forall n, In n (map fst l) <-> exists s, is_module_of d (mx_name m) modules s n) /\
    (forall s n a, is_module_of d (mx_name m) modules s n -> In (n, a) l ->
      (forall t f pulses rows, In t (mx_train_ids m) -> holds d f s t -> train_frames first pulse f s k t pulses rows ->
         chosen_frames arg t pulses rows (frames_at t a)) /\
      (forall t, ~ (In t (mx_train_ids m) /\ exists f, holds d f s t) -> frames_at t a = [])).
Proof.
  intros k arg r HG Hu Hk H. destruct (det_array_inv Hk H) as (ps & l & Hps & -> & Hf & Hin). exists l. split; [reflexivity|]. rewrite Hf.
  split; [exact (modules_sorted HM)|]. split.
  - intros n. rewrite in_map_iff. split.
    + intros ([s n'] & <- & Hx). exists s. now apply (modules_of HM).
    + intros (s & Hs). exists (s, n). split; [reflexivity|]. now apply (modules_of HM).
  - intros s n a Hs Ha. destruct (Hin n a Ha) as (s' & Hs' & Ha'). assert (s' = s) by (eapply module_unique; eassumption). subst s'.
    destruct (HG s n Hs) as [HF HL].
    exact (module_chosen G HM Hs HF Hu Hps HL Ha').
Qed.
Lemma det_array_all : forall k arg r, (forall s n, is_module_of d (mx_name m) modules s n -> module_files d s k) -> starts_with "image." k = true ->
  arg = PulsesById (PvSlice None None None) \/ arg = PulsesByIndex (PvSlice None None None) ->
  det_get_array first pulse m k arg = Ok r ->
  exists l, r = ByPulse l /\
    forall s n a, is_module_of d (mx_name m) modules s n -> In (n, a) l -> forall t f pulses rows, In t (mx_train_ids m) -> holds d f s t -> train_frames first pulse f s k t pulses rows ->
      frames_at t a = map (fun pv => (t, fst pv, snd pv)) (combine pulses rows).
Proof.
  intros k arg r HG Hk Harg H. destruct (det_array_inv Hk H) as (ps & l & Hps & -> & Hf & Hin). exists l. split; [reflexivity|].
  intros s n a Hs Ha. destruct (Hin n a Ha) as (s' & Hs' & Ha'). assert (s' = s) by (eapply module_unique; eassumption). subst s'.
  assert (Hall : is_all (ps_val ps) = true) by (destruct Harg as [-> | ->]; injection Hps as <-; reflexivity).
  assert (Hu : usable_sel arg) by (destruct Harg as [-> | ->]; simpl; auto).
  exact (module_everything G HM Hs (HG s n Hs) Hps Hall Ha').
Qed.
Lemma det_array_gap : forall k arg s n f x y t, (forall s n, is_module_of d (mx_name m) modules s n -> module_files d s k) -> starts_with "image." k = true ->
  is_module_of d (mx_name m) modules s n -> In f (dc_files d) -> In s (fa_sources f) -> In t (mx_train_ids m) ->
  (exists t', In t' (mx_train_ids m) /\ In t' (fa_tids f)) ->
  In x (fa_tids f) -> In y (fa_tids f) -> (x <= t <= y)%Z -> ~ In t (fa_tids f) ->
  exists e, det_get_array first pulse m k arg = Err e.
Proof.
  intros k arg s n f x y t HG Hk Hs Hf Hsf Ht (t' & Ht' & Htf') Hx Hy Hxy Hn. destruct (det_get_array first pulse m k arg) as [r|e] eqn:H; [|eauto]. exfalso.
  unfold det_get_array in H. apply bind_ok in H as (ps & Hps & H). rewrite Hk in H. apply bind_ok in H as (l & Hl & _).
  apply mapM_ok_iff in Hl. assert (Hin := proj2 (modules_of HM s n) Hs).
  assert (X : exists a, get_module_pulse_data first pulse m s k ps = Ok a).
  { clear -Hl Hin. induction Hl as [|x y l l' H Hl IH]; [destruct Hin|]. destruct Hin as [->|Hin]; [|auto]. apply bind_ok in H as (a & Ha & _). eauto. }
  destruct X as (a & Ha).
  assert (Hkept : In f (dc_files (mx_data m))).
  { apply (@mk_kept _ _ _ _ _ _ HM f s t'); [|assumption|split; auto]. apply module_list_In in Hs. apply (in_map fst) in Hs. exact Hs. }
  destruct (@module_gap V first pulse d _ modules min m HM s k (HG s n Hs) arg ps Hps f x y t) as (e & He); auto. congruence.
Qed.
Lemma det_array_accepts : forall k arg item, good_modules first pulse d m modules k -> usable_sel arg -> index_sorted arg -> starts_with "image." k = true -> known_shape item ->
  (forall s n, is_module_of d (mx_name m) modules s n ->
     no_gaps (mx_train_ids m) (mx_data m) s /\ (exists f t, In t (mx_train_ids m) /\ holds d f s t) /\
     (forall f, In f (dc_files d) -> In s (fa_sources f) -> exists ds, dict_get (data_key false s k) (h5_data (fa_file f)) = Some ds /\ frame_shape ds = item) /\
     (forall f t pulses rows, holds d f s t -> train_frames first pulse f s k t pulses rows -> NoDup pulses)) ->
  exists r, det_get_array first pulse m k arg = Ok r.
Proof.
  intros k arg item HG Hu Hsort Hk Hsh H. destruct (proj1 (check_sel_outcomes arg) Hu) as (ps & Hps). unfold det_get_array. rewrite Hps. cbn [bind]. rewrite Hk.
  assert (X : exists l, mapM (fun sm => let* a := get_module_pulse_data first pulse m (fst sm) k ps in Ok (snd sm, a)) (sorted_modules m) = Ok l /\
     Forall (fun p => ar_item (snd p) = item) l).
  { assert (Y : forall sm, In sm (sorted_modules m) -> exists a, get_module_pulse_data first pulse m (fst sm) k ps = Ok a /\ ar_item a = item).
    { intros [s n] Hin. apply (modules_of HM) in Hin. destruct (HG s n Hin) as [HF _]. destruct (H s n Hin) as (H1 & H2 & H3 & H4).
      exact (module_accepts HM Hin HF Hu Hps H1 H2 Hsh H3 H4 Hsort). }
    induction (sorted_modules m) as [|sm l IH]; [exists []; split; [reflexivity|constructor]|].
    destruct (Y sm (or_introl eq_refl)) as (a & Ha & Hi). destruct IH as (l' & Hl & HF); [intros x Hx; apply Y; now right|].
    exists ((snd sm, a) :: l'). simpl. rewrite Ha. cbn [bind]. rewrite Hl. split; [reflexivity|]. constructor; assumption. }
  destruct X as (l & -> & HF). cbn [bind]. assert (E : same_items (fun p : Z * arr V => ar_item (snd p)) l = true).
  { unfold same_items. destruct HF as [|x l Hx HF]; [reflexivity|]. apply forallb_forall. intros y Hy. rewrite Forall_forall in HF. rewrite Hx, (HF y Hy).
    unfold zlist_eqb. destruct (list_eq_dec Z.eq_dec item item); congruence. }
  rewrite E. eauto.
Qed.

(** Lists of pulse indexes have to be increasing, as far as they are inside the train. *)
Lemma det_array_order : forall k l r, good_modules first pulse d m modules k -> Forall u64_range l -> starts_with "image." k = true ->
  det_get_array first pulse m k (PulsesByIndex (PvList l)) = Ok r ->
  forall s n f t pulses rows, is_module_of d (mx_name m) modules s n -> In t (mx_train_ids m) -> holds d f s t -> train_frames first pulse f s k t pulses rows ->
    StronglySorted Z.lt (filter (fun i => i <? Z.of_nat (List.length pulses))%Z l).
Proof.
  intros k l r HG Hl Hk H s n f t pulses rows Hs Ht Hh Htr. destruct (det_array_inv Hk H) as (ps & l' & Hps & -> & Hf & Hin).
  destruct (HG s n Hs) as [HF HL].
  assert (X : exists a, In (n, a) l').
  { assert (Y : In n (map fst l')) by (rewrite Hf; apply (in_map snd) with (x := (s, n)); now apply (modules_of HM)).
    apply in_map_iff in Y as ([n' a] & <- & Y). eauto. }
  destruct X as (a & Ha). destruct (Hin n a Ha) as (s' & Hs' & Ha'). assert (s' = s) by (eapply module_unique; eassumption). subst s'.
  destruct (module_frames G HM Hs HF Hps Ha') as [M1 _].
  destruct (proj2 (@det_holds V d _ modules min m HM s n Hs f t Ht) Hh) as [Hf2 Htf].
  destruct (@fs_data V d _ modules min m HM s k HF f Hf2) as (_ & _ & Hmf & Ho).
  destruct (train_entry Ho Hmf Htf Htr) as (e & He & Het & -> & -> & Hlen). rewrite map_length, Hlen.
  destruct (M1 t f e Ht Hf2 He Het) as [_ S]. injection Hps as <-. cbn [ps_by_id ps_val is_all desired] in S.
  rewrite (map_ext_in _ (fun x => x)), map_id in S; [now apply S|]. intros x Hx. rewrite Forall_forall in Hl. apply u64_id. auto.
Qed.

(** ** Iterating *)
Lemma det_iter_spec : forall arg items, det_trains first pulse h5_empty m arg = Ok items ->
  exists ps, check_pulse_selection arg = Ok ps /\ items = mloop first pulse h5_empty m ps (mx_train_ids m).
Proof.
  intros arg items H. unfold det_trains in H. apply bind_ok in H as (ps & Hps & H). injection H as <-. exists ps. split; [assumption|].
  destruct (reachable_inv (mk_reach HM)) as [Hb Ho]. apply mpx_loop_spec; try assumption; [exact (det_good G HM)|]. intros s k f ds [].
Qed.
Lemma det_iter_frames : forall arg items t g k, good_modules first pulse d m modules k -> usable_sel arg -> starts_with "image." k = true ->
  det_trains first pulse h5_empty m arg = Ok items -> In (Ok (t, g)) items ->
  forall s n f pulses rows, is_module_of d (mx_name m) modules s n -> holds d f s t -> train_frames first pulse f s k t pulses rows ->
    (id_step_one arg -> StronglySorted Z.le pulses) ->
    (available (mx_data m) s k -> exists v, yielded g k n v) /\
    (forall v, yielded g k n v -> exists a, v = DPulses a /\ chosen_frames arg t pulses rows (ar_frames a)).
Proof.
  intros arg items t g k HG Hu Hk H Hin s n f pulses rows Hs Hh Htr Hsort.
  destruct (det_iter_spec H) as (ps & Hps & ->). apply mloop_In in Hin as (Ht & _ & Ha).
  destruct (HG s n Hs) as [HF HL].
  destruct (key_val_frames h5_empty G HM Hs HF Hk Hu Hps HL Ht Hh Htr Hsort) as (e & He & Het & V1 & V2 & _).
  assert (Hmod : In (s, n) (mx_modules m)) by (rewrite (mk_mods HM); now apply module_list_In).
  split.
  - intros (Hsrc & ks & Hks & Hkk).
    assert (X : exists v, key_val first pulse h5_empty (mx_data m) ps t s k = Ok (Some v)).
    { unfold assemble in Ha. apply bind_ok in Ha as (todo & Htodo & Ha). apply bind_ok in Ha as (l & Hl & _).
      assert (Hin : In (n, s, k) todo) by (apply (module_keys_In Htodo); eauto).
      assert (Y : exists o, key_val first pulse h5_empty (mx_data m) ps t s k = Ok o).
      { clear -Hl Hin. revert l Hl. induction todo as [|[[n0 s0] k0] todo IH]; intros l Hl; [destruct Hin|]. cbn [entries_nocache] in Hl.
        apply bind_ok in Hl as (o & Ho & Hl). apply bind_ok in Hl as (rest & Hr & _). destruct Hin as [E|Hin]; [injection E as -> -> ->; eauto|eapply IH; eassumption]. }
      destruct Y as ([v|] & Hv); [eauto|]. contradiction. }
    destruct X as (v & Hv). exists v. apply (assemble_In Ha). exists s, ks. auto.
  - intros v Hy. apply (assemble_In Ha) in Hy as (s' & ks & Hs' & _ & _ & Hv). assert (s' = s).
    { rewrite (mk_mods HM) in Hs'. apply module_list_In in Hs'. eapply module_unique; eassumption. }
    subst s'. destruct (V1 v Hv) as (a & -> & _ & _ & Hc). eauto.
Qed.

(** The chosen frames are determined. *)
Lemma sorted_nat_ext : forall l l', StronglySorted lt l -> StronglySorted lt l' -> (forall i, In i l <-> In i l') -> l = l'.
Proof.
  induction l as [|x l IH]; intros [|y l'] H H' E.
  - reflexivity.
  - exfalso. apply (E y). now left.
  - exfalso. apply (E x). now left.
  - inversion H; subst; inversion H'; subst. rewrite Forall_forall in *.
    assert (x = y).
    { destruct (proj1 (E x) (or_introl eq_refl)) as [->|Hx]; [reflexivity|]. destruct (proj2 (E y) (or_introl eq_refl)) as [->|Hy]; [reflexivity|].
      specialize (H5 x Hx). specialize (H3 y Hy). lia. }
    subst y. f_equal. apply IH; try assumption. intros i. split; intros Hi.
    + destruct (proj1 (E i) (or_intror Hi)) as [->|Hx]; [|assumption]. specialize (H3 i Hi). lia.
    + destruct (proj2 (E i) (or_intror Hi)) as [->|Hx]; [|assumption]. specialize (H5 i Hi). lia.
Qed.
Lemma chosen_frames_fun : forall arg t pulses (rows : list V) a b, chosen_frames arg t pulses rows a -> chosen_frames arg t pulses rows b -> a = b.
Proof.
  intros arg t pulses rows a b (ix & S1 & I1 & F1) (ix' & S2 & I2 & F2).
  assert (ix = ix') by (apply sorted_nat_ext; try assumption; intros i; now rewrite I1, I2). subst ix'.
  clear -F1 F2. revert b F2. induction F1 as [|i x ix a H F1 IH]; intros b F2; inversion F2; subst; [reflexivity|]. f_equal; [|now apply IH].
  destruct H as (p & v & P1 & P2 & ->). destruct H2 as (p' & v' & P1' & P2' & ->). congruence.
Qed.
Lemma iter_is_batch : forall arg items t g k r, good_modules first pulse d m modules k -> usable_sel arg -> starts_with "image." k = true ->
  det_trains first pulse h5_empty m arg = Ok items -> In (Ok (t, g)) items -> det_get_array first pulse m k arg = Ok r ->
  (id_step_one arg -> forall s n f pulses rows, is_module_of d (mx_name m) modules s n -> holds d f s t -> train_frames first pulse f s k t pulses rows -> StronglySorted Z.le pulses) ->
  exists l, r = ByPulse l /\ forall n a v, In (n, a) l -> yielded g k n v -> exists b, v = DPulses b /\ ar_frames b = frames_at t a.
Proof.
  intros arg items t g k r HG Hu Hk Hit Hin Hr Hsort.
  destruct (det_array_spec HG Hu Hk Hr) as (l & -> & _ & Hl & Hall). exists l. split; [reflexivity|]. intros n a v Ha Hv.
  assert (Hn : In n (map fst l)) by (apply (in_map fst) in Ha; exact Ha). apply Hl in Hn as (s & Hs).
  destruct (Hall s n a Hs Ha) as [A1 _].
  assert (Hit' := Hit). destruct (det_iter_spec Hit') as (ps & Hps & ->). apply mloop_In in Hin as Hin'. destruct Hin' as (Ht & _ & Hasm).
  (* the train is held by a file of the module *)
  assert (Hh : exists f, holds d f s t).
  { apply (assemble_In Hasm) in Hv as (s' & ks & Hs' & _ & _ & Hv). assert (s' = s).
    { rewrite (mk_mods HM) in Hs'. apply module_list_In in Hs'. eapply module_unique; eassumption. }
    subst s'. unfold key_val, ifound in Hv. destruct (find_data (mx_data m) s t) as [[f p]|] eqn:E.
    - exists f. apply find_data_holds in E as ((H1 & H2 & H3) & _). destruct (mk_narrow HM) as (N1 & _). split; auto.
    - cbn [bind] in Hv. rewrite Hk in Hv. discriminate. }
  destruct Hh as (f & Hh). destruct (HG s n Hs) as [HF HL].
  assert (Hf2 := proj2 (@det_holds V d _ modules min m HM s n Hs f t Ht) Hh). destruct Hf2 as [Hf Htf].
  destruct (@fs_data V d _ modules min m HM s k HF f Hf) as (_ & _ & Hmf & Ho).
  destruct (train_frames_exist first pulse Ho Hmf Htf) as (pulses & rows & Htr).
  assert (Hso : id_step_one arg -> StronglySorted Z.le pulses) by (intros X; exact (Hsort X s n f pulses rows Hs Hh Htr)).
  destruct (@det_iter_frames arg _ t g k HG Hu Hk Hit Hin s n f pulses rows Hs Hh Htr Hso) as [_ I2].
  destruct (I2 v Hv) as (b & -> & Hb). exists b. split; [reflexivity|].
  exact (chosen_frames_fun Hb (A1 t f pulses rows Ht Hh Htr)).
Qed.

(** The trains yielded: all complete trains, in order, up to the first error. *)
Lemma mloop_trains : forall ps tids, good_collection (mx_data m) -> exists done rest,
  map (fun x => match x with Ok p => Some (fst p) | Err _ => None end) (mloop first pulse h5_empty m ps tids) =
    map Some (filter (fun t => match check_data_missing (mx_data m) t with Ok false => true | _ => false end) done) ++ rest /\
  ((done = tids /\ rest = []) \/ (exists r, tids = done ++ r /\ r <> []) /\ rest = [None]).
Proof.
  intros ps tids GC. induction tids as [|t tids IH]; [exists [], []; auto|]. cbn [mloop].
  destruct (check_missing_spec t (mk_reach HM) GC) as (b & Hb & _). rewrite Hb. destruct b.
  - destruct IH as (done & rest & E & C). exists (t :: done), rest. cbn [filter]. rewrite Hb. split; [exact E|].
    destruct C as [[-> ->]|[(r & -> & Hr) ->]]; [left; auto|right]. split; [exists r; auto|reflexivity].
  - destruct (assemble first pulse h5_empty m ps t) as [x|e].
    + destruct IH as (done & rest & E & C). exists (t :: done), rest. cbn [filter map]. rewrite Hb. cbn [map fst app]. split; [now rewrite E|].
      destruct C as [[-> ->]|[(r & -> & Hr) ->]]; [left; auto|right]. split; [exists r; auto|reflexivity].
    + exists [], [None]. split; [reflexivity|]. right. split; [|reflexivity]. exists (t :: tids). split; [reflexivity|discriminate].
Qed.
Lemma det_iter_complete : forall arg items, good_collection (mx_data m) -> det_trains first pulse h5_empty m arg = Ok items ->
  (forall t g, In (Ok (t, g)) items -> complete (mx_data m) t) /\
  ((forall e, ~ In (Err e) items) -> forall t, In t (mx_train_ids m) -> complete (mx_data m) t -> exists g, In (Ok (t, g)) items) /\
  exists done, (exists r, mx_train_ids m = done ++ r /\ (r = [] \/ exists e, last items (Err e) = Err e)) /\
    flat_map (fun x => match x with Ok p => [fst p] | Err _ => [] end) items =
    filter (fun t => match check_data_missing (mx_data m) t with Ok false => true | _ => false end) done.
Proof.
  intros arg items GC H. destruct (det_iter_spec H) as (ps & Hps & ->).
  assert (Comp : forall t, check_data_missing (mx_data m) t = Ok false <-> complete (mx_data m) t).
  { intros t. destruct (check_missing_spec t (mk_reach HM) GC) as (b & Hb & Hc). rewrite Hb. split; [intros E; injection E as ->; now apply Hc|].
    intros C. apply Hc in C. now subst. }
  destruct (@mloop_trains ps (mx_train_ids m) GC) as (done & rest & E & C).
  assert (Flat : forall X (l : list (res (Z * X))) ts rest, map (fun x => match x with Ok p => Some (fst p) | Err _ => None end) l = map Some ts ++ rest -> (rest = [] \/ rest = [None]) ->
    flat_map (fun x => match x with Ok p => [fst p] | Err _ => [] end) l = ts /\ (rest = [None] -> exists e, last l (Err e) = Err e /\ In (Err e) l)).
  { clear. intros X l. induction l as [|x l IH]; intros ts rest H Hr.
    - destruct ts; [|discriminate]. destruct Hr as [->| ->]; [|discriminate]. split; [reflexivity|discriminate].
    - destruct ts as [|t ts].
      + destruct Hr as [->| ->]; [discriminate|]. destruct x as [p|e]; [discriminate|]. destruct l; [|discriminate]. split; [reflexivity|]. intros _. exists e. split; [reflexivity|now left].
      + destruct x as [p|e]; [|discriminate]. injection H as Hp H. destruct (IH ts rest H Hr) as [I1 I2]. split; [simpl; now rewrite I1, Hp|].
        intros Er. destruct (I2 Er) as (e & L & I3). exists e. split; [|now right]. destruct l; [destruct I3|]. exact L. }
  destruct (Flat _ _ _ _ E) as [F1 F2]; [destruct C as [[_ ->]|[_ ->]]; auto|].
  split; [|split].
  - intros t g Hin. apply mloop_In in Hin as (_ & Hc & _). now apply Comp.
  - intros Hno t Ht Hct. assert (done = mx_train_ids m) as ->.
    { destruct C as [[-> _]|[_ Er]]; [reflexivity|]. destruct (F2 Er) as (e & _ & He). exfalso. exact (Hno e He). }
    assert (X : In t (filter (fun t => match check_data_missing (mx_data m) t with Ok false => true | _ => false end) (mx_train_ids m))).
    { apply filter_In. split; [assumption|]. now rewrite (proj2 (Comp t) Hct). }
    rewrite <- F1 in X. apply in_flat_map in X as ([[t' g]|e] & Hx & Hin); [|destruct Hin]. destruct Hin as [<-|[]]. eauto.
  - exists done. split; [|exact F1]. destruct C as [[-> _]|[(r & Er & _) Hrest]].
    + exists []. rewrite app_nil_r. auto.
    + exists r. split; [assumption|]. right. destruct (F2 Hrest) as (e & He & _). eauto.
Qed.
End M.
End C.
