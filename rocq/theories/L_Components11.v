(** Iterating over the trains of a detector: the loops. *)
From Verif Require Import Base PyStr M_Files M_Machinery M_Reader M_Glob M_Select M_Series M_Stacking M_Components
  S_Reader S_Coll S_Glob S_Select S_Avail S_Series S_Stacking S_Components
  L_Base L_Machinery L_Reader L_GetArray L_Select L_Trains L_SelTrains L_Array2 L_Sel2 L_Hist L_Series L_Writer5
  L_Components L_Components2 L_Components3 L_Components4 L_Components5 L_Components6 L_Components7 L_Components8 L_Components9 L_Components10.
Set Implicit Arguments. Unset Strict Implicit.
Local Open Scope string_scope.
Local Open Scope list_scope.

Lemma nth_error_combine : forall A B (a : list A) (b : list B) i,
  nth_error (combine a b) i = match nth_error a i, nth_error b i with Some x, Some y => Some (x, y) | _, _ => None end.
Proof.
  intros A B; induction a as [|x a IH]; intros [|y b] [|i]; simpl; try reflexivity.
  - now destruct (nth_error a i).
  - apply IH.
Qed.
(** *** Grouping by key *)
Lemma group_keys_get : forall B (l : list (string * B)) k,
  dict_get k (group_keys l) = match map snd (filter (fun p => String.eqb (fst p) k) l) with [] => None | vs => Some vs end.
Proof.
  intros B l k. unfold group_keys.
  assert (G : forall l (g : list (string * list B)),
    dict_get k (fold_left (fun g p => group_add (fst p) (snd p) g) l g) =
    match map snd (filter (fun p => String.eqb (fst p) k) l) with
    | [] => dict_get k g
    | vs => Some (match dict_get k g with Some l0 => l0 | None => [] end ++ vs) end).
  { clear l. induction l as [|[k' b] l IH]; intros g; [reflexivity|]. cbn [fold_left fst snd filter]. rewrite IH. unfold group_add.
    destruct (String.eqb_spec k' k) as [->|Hn].
    - cbn [map snd]. rewrite dict_get_set, String.eqb_refl. destruct (map snd (filter _ l)) as [|v vs].
      + destruct (dict_get k g); reflexivity.
      + destruct (dict_get k g) as [l0|]; [|reflexivity]. now rewrite <- app_assoc.
    - rewrite dict_get_set. destruct (String.eqb_spec k k') as [->|_]; [congruence|]. reflexivity. }
  rewrite G. cbn [dict_get]. destruct (map snd _); reflexivity.
Qed.

Section C.
Context {V : Type}.
Notation faccess := (faccess V).
Notation dcoll := (dcoll V).
Context (first : V -> V) (pulse : V -> Z) (h5_empty : bool).

(** *** Without the cache *)
Definition icache_inv (d : dcoll) (c : it_cache V) : Prop :=
  forall s k f ds, In (s, k, (f, ds)) c ->
    In f (source_files (dc_files d) s) /\ fa_dataset f (ds_path "INSTRUMENT" s k) = Ok ds.
Definition ifound (d : dcoll) (s k : string) (t : Z) : res (option (faccess * nat * dataset V)) :=
  match find_data d s t with
  | None => Ok None
  | Some (f, p) => let* ds := fa_dataset f (ds_path "INSTRUMENT" s k) in Ok (Some (f, p, ds))
  end.
Lemma mpx_find_spec : forall (d : dcoll) c s k t,
  built d -> Forall opened (dc_files d) -> good_files d -> icache_inv d c ->
  fst (mpx_find d c s k t) = ifound d s k t /\ icache_inv d (snd (mpx_find d c s k t)).
Proof.
  intros d c s k t Hb Ho Hg Hinv.
  assert (Hfb : let fb := match find_data d s t with
      | None => (Ok None, c)
      | Some (f, pos) =>
          match fa_dataset f (ds_path "INSTRUMENT" s k) with
          | Ok ds => (Ok (Some (f, pos, ds)), (s, k, (f, ds)) :: c)
          | Err e => (Err e, c)
          end
      end in fst fb = ifound d s k t /\ icache_inv d (snd fb)).
  { unfold ifound. destruct (find_data d s t) as [[f p]|] eqn:E; [|split; [reflexivity|assumption]].
    destruct (fa_dataset f _) as [ds|e] eqn:Ed; simpl; split; try reflexivity; try assumption.
    intros s' k' f' ds' [H|H]; [|auto]. injection H as <- <- <- <-.
    apply find_data_holds in E as ((H1 & H2 & _) & _). split; [apply source_files_In; auto|exact Ed]. }
  unfold mpx_find. destruct (it_lookup s k c) as [[f ds]|] eqn:El; [|exact Hfb].
  destruct (tid_positions f t) as [|p r] eqn:Ep; [exact Hfb|]. simpl. split; [|assumption].
  apply it_lookup_In in El. destruct (Hinv _ _ _ _ El) as [Hf Hds].
  assert (Hh : holds d f s t).
  { apply source_files_In in Hf as [H1 H2]. repeat split; try assumption.
    eapply nth_error_In, tid_positions_spec; eassumption. }
  unfold ifound. destruct (find_data_some Hb Ho Hg Hh) as [p' E]. rewrite E.
  apply find_data_holds in E as (_ & _ & r' & E). rewrite Ep in E. injection E as <- <-. rewrite Hds. reflexivity.
Qed.

Definition key_val (d : dcoll) (ps : psel) (t : Z) (s k : string) : res (option (det_val V)) :=
  let* o := ifound d s k t in
  if starts_with "image." k
  then let* a := it_pulse_val first pulse h5_empty ps s k t o in Ok (match a with Some a => Some (DPulses a) | None => None end)
  else it_slow_val s k o.
Lemma it_key_spec : forall (d : dcoll) ps t c s k,
  built d -> Forall opened (dc_files d) -> good_files d -> icache_inv d c ->
  fst (it_key first pulse h5_empty d ps t c s k) = key_val d ps t s k /\ icache_inv d (snd (it_key first pulse h5_empty d ps t c s k)).
Proof.
  intros d ps t c s k Hb Ho Hg Hinv. unfold it_key, key_val. destruct (@mpx_find_spec d c s k t Hb Ho Hg Hinv) as [F1 F2].
  destruct (mpx_find d c s k t) as [o c1]. cbn [fst snd] in *. subst o. split; [reflexivity|assumption].
Qed.
Fixpoint entries_nocache (d : dcoll) (ps : psel) (t : Z) (todo : list (Z * string * string)) : res (list (string * (Z * det_val V))) :=
  match todo with
  | [] => Ok []
  | (n, s, k) :: r =>
      let* ov := key_val d ps t s k in
      let* rest := entries_nocache d ps t r in
      Ok (match ov with Some v => (k, (n, v)) :: rest | None => rest end)
  end.
Lemma it_entries_spec : forall (d : dcoll) ps t todo c,
  built d -> Forall opened (dc_files d) -> good_files d -> icache_inv d c ->
  fst (it_entries first pulse h5_empty d ps t todo c) = entries_nocache d ps t todo /\ icache_inv d (snd (it_entries first pulse h5_empty d ps t todo c)).
Proof.
  intros d ps t. induction todo as [|[[n s] k] todo IH]; intros c Hb Ho Hg Hinv; simpl; [split; [reflexivity|assumption]|].
  destruct (@it_key_spec d ps t c s k Hb Ho Hg Hinv) as [F1 F2]. destruct (it_key first pulse h5_empty d ps t c s k) as [o c1]. cbn [fst snd] in *. subst o.
  destruct (key_val d ps t s k) as [ov|e]; cbn [bind]; [|split; [reflexivity|assumption]].
  destruct (IH c1 Hb Ho Hg F2) as [I1 I2]. destruct (it_entries first pulse h5_empty d ps t todo c1) as [rest c2]. cbn [fst snd] in *. subst rest.
  split; [reflexivity|assumption].
Qed.
Definition assemble (m : mpx V) (ps : psel) (t : Z) : res (list (string * list (Z * det_val V))) :=
  let* todo := module_keys m in
  let* l := entries_nocache (mx_data m) ps t todo in
  let g := group_keys l in
  if forallb (fun p => same_items (@det_shape V) (snd p)) g then Ok g else Err EValueError.
Lemma mpx_assemble_spec : forall (m : mpx V) ps t c, let d := mx_data m in
  built d -> Forall opened (dc_files d) -> good_files d -> icache_inv d c ->
  fst (mpx_assemble first pulse h5_empty m ps t c) = assemble m ps t /\ icache_inv d (snd (mpx_assemble first pulse h5_empty m ps t c)).
Proof.
  intros m ps t c d Hb Ho Hg Hinv. unfold mpx_assemble, assemble. destruct (module_keys m) as [todo|e]; cbn [bind]; [|split; [reflexivity|assumption]].
  destruct (@it_entries_spec (mx_data m) ps t todo c Hb Ho Hg Hinv) as [F1 F2].
  destruct (it_entries first pulse h5_empty (mx_data m) ps t todo c) as [o c1]. cbn [fst snd] in *. subst o. split; [reflexivity|assumption].
Qed.
Fixpoint mloop (m : mpx V) (ps : psel) (tids : list Z) : list (res (Z * list (string * list (Z * det_val V)))) :=
  match tids with
  | [] => []
  | t :: r =>
      match check_data_missing (mx_data m) t with
      | Err e => [Err e]
      | Ok true => mloop m ps r
      | Ok false => match assemble m ps t with Err e => [Err e] | Ok x => Ok (t, x) :: mloop m ps r end
      end
  end.
Lemma mpx_loop_spec : forall (m : mpx V) ps tids c, let d := mx_data m in
  built d -> Forall opened (dc_files d) -> good_files d -> icache_inv d c ->
  mpx_loop first pulse h5_empty m ps true tids c = mloop m ps tids.
Proof.
  intros m ps. induction tids as [|t tids IH]; intros c d Hb Ho Hg Hinv; cbn [mpx_loop mloop]; [reflexivity|].
  destruct (check_data_missing (mx_data m) t) as [[|]|e]; [apply IH; assumption| |reflexivity].
  destruct (@mpx_assemble_spec m ps t c Hb Ho Hg Hinv) as [F1 F2]. destruct (mpx_assemble first pulse h5_empty m ps t c) as [o c1]. cbn [fst snd] in *. subst o.
  destruct (assemble m ps t); [|reflexivity]. now rewrite IH.
Qed.

Lemma mloop_In : forall (m : mpx V) ps tids t g, In (Ok (t, g)) (mloop m ps tids) ->
  In t tids /\ check_data_missing (mx_data m) t = Ok false /\ assemble m ps t = Ok g.
Proof.
  intros m ps. induction tids as [|t' tids IH]; intros t g H; [destruct H|]. cbn [mloop] in H.
  destruct (check_data_missing (mx_data m) t') as [[|]|e] eqn:Ec.
  - destruct (IH _ _ H) as (I1 & I2). split; [now right|exact I2].
  - destruct (assemble m ps t') as [x|e] eqn:Ea.
    + destruct H as [H|H].
      * injection H as -> ->. split; [now left|]. auto.
      * destruct (IH _ _ H) as (I1 & I2). split; [now right|exact I2].
    + destruct H as [H|[]]. discriminate.
  - destruct H as [H|[]]. discriminate.
Qed.
Lemma entries_In : forall (d : dcoll) ps t todo l, entries_nocache d ps t todo = Ok l -> forall k n v,
  In (k, (n, v)) l <-> exists s, In (n, s, k) todo /\ key_val d ps t s k = Ok (Some v).
Proof.
  intros d ps t. induction todo as [|[[n0 s0] k0] todo IH]; intros l H k n v; cbn [entries_nocache] in H.
  - injection H as <-. split; [intros []|intros (s & [] & _)].
  - apply bind_ok in H as (ov & Hv & H). apply bind_ok in H as (rest & Hr & H). injection H as <-. specialize (IH rest Hr).
    destruct ov as [v0|].
    + split.
      * intros [H|H]; [injection H as <- <- <-; exists s0; split; [now left|assumption]|]. apply IH in H as (s & H1 & H2). exists s. split; [now right|assumption].
      * intros (s & [H|H] & H2); [injection H as <- <- <-; rewrite Hv in H2; injection H2 as <-; now left|]. right. apply IH. eauto.
    + rewrite IH. split; intros (s & H1 & H2); exists s; split; auto; [now right|].
      destruct H1 as [H1|H1]; [|assumption]. injection H1 as <- <- <-. congruence.
Qed.
Lemma module_keys_In : forall (m : mpx V) todo, module_keys m = Ok todo -> forall n s k,
  In (n, s, k) todo <-> In (s, n) (mx_modules m) /\ exists ks, keys_for_source (mx_data m) s = Ok ks /\ In k ks.
Proof.
  intros m todo H n s k. unfold module_keys in H. apply bind_ok in H as (l & H & H'). injection H' as <-.
  apply mapM_ok_iff in H. rewrite in_concat.
  assert (Hp : forall x, In x (sorted_modules m) <-> In x (mx_modules m)).
  { intros x. unfold sorted_modules. split; apply Permutation_in; [symmetry|]; apply sort_key_perm. }
  rewrite <- Hp. clear Hp. split.
  - intros (y & Hy & Hin). induction H as [|[s0 n0] y0 ss ys H0 H IH]; [destruct Hy|].
    destruct Hy as [<-|Hy].
    + apply bind_ok in H0 as (ks & Hk & H0). injection H0 as <-. cbn [fst snd] in *. apply in_map_iff in Hin as (k' & E & Hin). injection E as <- <- <-.
      split; [now left|]. eauto.
    + destruct (IH Hy) as [I1 I2]. split; [now right|exact I2].
  - intros (Hin & ks & Hk & Hkk). induction H as [|[s0 n0] y0 ss ys H0 H IH]; [destruct Hin|].
    destruct Hin as [E|Hin].
    + injection E as -> ->. exists y0. split; [now left|]. apply bind_ok in H0 as (ks' & Hk' & H0). injection H0 as <-. cbn [fst snd] in *.
      rewrite Hk in Hk'. injection Hk' as <-. now apply in_map.
    + destruct (IH Hin) as (y & I1 & I2). exists y. split; [now right|exact I2].
Qed.
(** What is yielded for a train. *)
Lemma assemble_In : forall (m : mpx V) ps t g, assemble m ps t = Ok g -> forall k n v,
  (exists l, dict_get k g = Some l /\ In (n, v) l) <->
  exists s ks, In (s, n) (mx_modules m) /\ keys_for_source (mx_data m) s = Ok ks /\ In k ks /\ key_val (mx_data m) ps t s k = Ok (Some v).
Proof.
  intros m ps t g H k n v. unfold assemble in H. apply bind_ok in H as (todo & Ht & H). apply bind_ok in H as (l & Hl & H). cbv zeta in H.
  destruct (forallb _ _); [|discriminate]. injection H as <-.
  transitivity (In (k, (n, v)) l).
  - rewrite group_keys_get. split.
    + intros (l' & E & Hin). destruct (map snd (filter _ l)) as [|x xs] eqn:El; [discriminate|]. injection E as <-. rewrite <- El in Hin.
      apply in_map_iff in Hin as ([k' nv] & E & Hin). cbn [snd] in E. subst nv. apply filter_In in Hin as [Hin Ek]. cbn [fst] in Ek. apply String.eqb_eq in Ek. now subst.
    + intros Hin. assert (X : In (n, v) (map snd (filter (fun p => String.eqb (fst p) k) l))).
      { apply in_map_iff. exists (k, (n, v)). split; [reflexivity|]. apply filter_In. split; [assumption|]. apply String.eqb_refl. }
      destruct (map snd (filter _ l)) as [|x xs]; [destruct X|]. eauto.
  - rewrite (entries_In Hl). split.
    + intros (s & H1 & H2). apply (module_keys_In Ht) in H1 as (H1 & ks & H3 & H4). exists s, ks. auto.
    + intros (s & ks & H1 & H2 & H3 & H4). exists s. split; [|assumption]. apply (module_keys_In Ht). eauto.
Qed.

(** *** Pulse data *)
Lemma check_val_shape : forall v pv, check_pulse_val v = Ok pv -> (match pv with PSlice a b s => 0 <= a /\ 0 <= b /\ 1 <= s | PList _ => True end)%Z.
Proof.
  intros [st sp step| |x|l] pv H; simpl in H.
  - destruct (_ <? 1)%Z eqn:E1; [discriminate|]. destruct (_ || _) eqn:E2; [discriminate|]. injection H as <-. apply orb_false_iff in E2. lia.
  - discriminate.
  - injection H as <-. exact I.
  - injection H as <-. exact I.
Qed.

Section M.
Context (d : dcoll) (name : string) (modules : option (list Z)) (min : Z) (m : mpx V).
Context (R : reachable d) (K : distinct_kinds d) (G : good_files d).
Context (HM : made d name modules min m).
Context (s : string) (n : Z) (Hm : is_module_of d name modules s n) (k : string) (HF : module_files d s k).
Context (Him : starts_with "image." k = true).
Context (arg : pulse_arg) (ps : psel) (Hu : usable_sel arg) (Hps : check_pulse_selection arg = Ok ps).
Context (HL : pulses_limited first pulse d s k).
Let fs := source_files (dc_files (mx_data m)) s.

Lemma key_val_frames : forall t f pulses rows, In t (mx_train_ids m) -> holds d f s t -> train_frames first pulse f s k t pulses rows ->
  (id_step_one arg -> StronglySorted Z.le pulses) ->
  exists e, In e (ents f s k) /\ fst e = t /\
    (forall v, key_val (mx_data m) ps t s k = Ok (Some v) ->
      exists a, v = DPulses a /\ ar_frames a = map (frame first (dds f s k)) (entry_sel ps (drows pulse f s k) e) /\
        ar_item a = frame_shape (dds f s k) /\ chosen_frames arg t pulses rows (ar_frames a)) /\
    key_val (mx_data m) ps t s k <> Ok None /\
    (known_shape (frame_shape (dds f s k)) -> NoDup pulses -> index_sorted arg ->
     (h5_empty = true \/ exists i p, nth_error pulses i = Some p /\ chosen arg i p) ->
     exists v, key_val (mx_data m) ps t s k = Ok (Some v)).
Proof.
  intros t f pulses rows Ht Hh Htr Hsort.
  destruct (proj2 (@det_holds V d name modules min m HM s n Hm f t Ht) Hh) as [Hf Htf].
  destruct (@fs_data V d name modules min m HM s k HF f Hf) as ([Hne Hmd] & Hz & Hmf & Ho).
  destruct (HL Hh Htr) as [L1 L2].
  destruct (train_entry Ho Hmf Htf Htr) as (e & He & Het & Ep & Er & Hlen).
  exists e. split; [assumption|]. split; [assumption|].
  destruct (reachable_inv (mk_reach HM)) as [Hb Hop]. pose proof (@det_good V d name modules min m G HM) as Hg.
  assert (Hh' : holds (mx_data m) f s t).
  { apply source_files_In in Hf as [Hf1 Hf2]. split; auto. }
  destruct (find_data_some Hb Hop Hg Hh') as [p Hfd].
  assert (Hp := proj1 (proj2 (find_data_holds Hfd))).
  assert (Hent : @nth_error (Z * (Z * Z)) (ents f s k) p = Some e).
  { assert (HNe : NoDup (map fst (ents f s k))) by (rewrite (ents_fst Hmd); apply StronglySorted_NoDup_lt, (md_sorted Hmd)).
    assert (Hp' : nth_error (map fst (ents f s k)) p = Some t) by (rewrite (ents_fst Hmd); exact Hp).
    rewrite nth_error_map in Hp'. destruct (@nth_error (Z * (Z * Z)) (ents f s k) p) as [e'|] eqn:E'; [|discriminate Hp'].
    f_equal. simpl in Hp'. injection Hp' as Hp'.
    apply (NoDup_map_inj HNe); [eapply nth_error_In; exact E'|assumption|congruence]. }
  destruct (md_ix Hmd) as (firsts & counts & Hix & Lf & Lc & HE).
  assert (Hfc : nth_error firsts p = Some (e_first e) /\ nth_error counts p = Some (e_count e)).
  { rewrite HE in Hent. unfold entries in Hent. rewrite !nth_error_combine in Hent.
    destruct (nth_error (fa_tids f) p); [|discriminate]. destruct (nth_error firsts p) as [a|]; [|discriminate].
    destruct (nth_error counts p) as [c|]; [|discriminate]. injection Hent as <-. split; reflexivity. }
  destruct Hfc as [Hfi Hco].
  set (Rr := zslice (drows pulse f s k) (e_first e) (e_first e + e_count e)) in *.
  assert (Hnn := md_nonneg Hmd). unfold nonneg_entries in Hnn. rewrite Forall_forall in Hnn. destruct (Hnn e He) as [E0 E1].
  assert (Hbd := md_bounds Hmd). rewrite Forall_forall in Hbd. destruct (Hbd e He) as [B1 B2].
  assert (Hcomb : Rr = combine (map pulse (zslice (ds_rows (dpds f s k)) (e_first e) (e_first e + e_count e))) (zslice (ds_rows (dds f s k)) (e_first e) (e_first e + e_count e))).
  { unfold Rr, drows. rewrite <- zslice_combine. f_equal. unfold zslice. now rewrite <- firstn_map, <- skipn_map. }
  pose proof (@zslice_length _ (ds_rows (dds f s k)) (e_first e) (e_count e) E0 E1 B1) as Ld.
  pose proof (@zslice_length _ (ds_rows (dpds f s k)) (e_first e) (e_count e) E0 E1 B2) as Lp.
  assert (Hsnd : zslice (ds_rows (dds f s k)) (e_first e) (e_first e + e_count e) = map snd Rr).
  { rewrite Hcomb, map_snd_combine; [reflexivity|]. rewrite map_length. lia. }
  assert (Hfst : map pulse (zslice (ds_rows (dpds f s k)) (e_first e) (e_first e + e_count e)) = map fst Rr).
  { rewrite Hcomb, map_fst_combine; [reflexivity|]. rewrite map_length. lia. }
  assert (Hps' := Hps). apply check_sel_inv in Hps' as (v & Hv & Hab).
  destruct (@it_selection V h5_empty ps (dds f s k) (drows pulse f s k) e Rr eq_refl Hlen Hsnd B1 E0 (desired_nonneg Hps) (check_val_shape Hv)) as (Rsel & S1 & S2 & S3 & S4).
  { rewrite Ep, Forall_map in L1. exact L1. }
  { rewrite Ep, map_length in L2. lia. }
  { intros Hbi His. rewrite <- Ep. apply Hsort. destruct Hab as [[-> _]|[-> Hb2]]; [|congruence].
    destruct v as [st sp step| |x|l]; simpl in Hv.
    - destruct (_ <? 1)%Z; [discriminate|]. destruct (_ || _); [discriminate|]. injection Hv as Hv. rewrite <- Hv in His. simpl in His.
      destruct step as [[|[q|q|]|q]|]; try exact I; destruct His.
    - discriminate.
    - injection Hv as Hv. rewrite <- Hv in His. destruct His.
    - injection Hv as Hv. rewrite <- Hv in His. destruct His. }
  (* the value computed *)
  assert (Hkv : key_val (mx_data m) ps t s k =
    let* data := data_at (dds f s k) (e_first e) (it_positions ps (map fst Rr) (e_count e)) h5_empty in
    let* a := guess_axes first (ds_item (dds f s k)) data (map (@lab V) (map (pair t) Rsel)) in
    Ok (Some (DPulses a))).
  { unfold key_val, ifound. rewrite Hfd, (md_ds Hmd). cbn [bind]. rewrite Him. unfold it_pulse_val. rewrite Hix. cbn [bind fst snd].
    unfold nth_res. rewrite Hfi, Hco. cbn [bind]. unfold read_pulse_ids. rewrite (md_pds Hmd). cbn [bind].
    assert (Hit : match ds_item (dpds f s k) with [] | [1%Z] => Ok (map pulse (ds_slice (dpds f s k) (e_first e) (e_first e + e_count e))) | _ => Err EValueError end = Ok (map fst Rr)).
    { rewrite <- Hfst. unfold ds_slice. destruct (md_item Hmd) as [->| ->]; reflexivity. }
    rewrite Hit. cbn [bind]. fold (it_positions ps (map fst Rr) (e_count e)). rewrite S2. cbn [bind].
    destruct (data_at _ _ _ _) as [data|]; [|reflexivity]. cbn [bind].
    replace (map (@lab V) (map (pair t) Rsel)) with (map (pair t) (map fst Rsel)) by (rewrite !map_map; reflexivity).
    destruct (guess_axes _ _ _ _); reflexivity. }
  rewrite Hkv. split; [|split].
  - intros v0 H. apply bind_ok in H as (data & Hdat & H). apply bind_ok in H as (a & Ha & H). injection H as <-.
    destruct (S3 data Hdat) as [-> Hinc].
    assert (Em : map snd Rsel = map (@dat V) (map (pair t) Rsel)) by (rewrite map_map; reflexivity).
    rewrite Em in Ha. apply guess_axes_spec in Ha as (_ & _ & ->). exists (mk_arr (frame_shape (dds f s k)) (map (frame first (dds f s k)) (map (pair t) Rsel))).
    split; [reflexivity|]. cbn [ar_frames ar_item]. rewrite <- Het at 1. rewrite S1. split; [reflexivity|]. split; [reflexivity|].
    replace (map (pair t) Rsel) with (entry_sel ps (drows pulse f s k) e) by (rewrite <- S1, Het; reflexivity). subst pulses rows. rewrite <- Het.
    apply sel_chosen; try assumption; try reflexivity.
    + rewrite Forall_map in L1. exact L1.
    + rewrite map_length in L2. exact L2.
  - intros H. apply bind_ok in H as (data & Hdat & H). apply bind_ok in H as (a & Ha & H). discriminate.
  - intros Hks HNp Hsorted Hsome.
    assert (Hne' : h5_empty = true \/ Rsel <> []).
    { destruct Hsome as [->|(i & q & Hi & Hch)]; [now left|right]. intros ->. simpl in S1. symmetry in S1.
      assert (X : chosen_frames arg t pulses rows []).
      { replace (@nil (Z * Z * V)) with (map (frame first (dds f s k)) (entry_sel ps (drows pulse f s k) e)) by now rewrite S1.
        rewrite Ep, Er. rewrite <- Het. apply sel_chosen; try assumption; try reflexivity.
        - rewrite Ep, Forall_map in L1. exact L1.
        - rewrite Ep, map_length in L2. exact L2.
        - intros B _. apply SS_filter_gen. apply (desired_sorted Hu Hps Hsorted B). }
      destruct X as (ix & _ & Hix2 & HF2). inversion HF2; subst. assert (In i []) by (apply Hix2; eauto). destruct H. }
    destruct (S4 Hne' (fun B => desired_sorted Hu Hps Hsorted B)) as (data & Hdat). rewrite Hdat. cbn [bind].
    destruct (S3 data Hdat) as [-> _].
    assert (Em : map snd Rsel = map (@dat V) (map (pair t) Rsel)) by (rewrite map_map; reflexivity). rewrite Em.
    assert (X : exists a, guess_axes first (ds_item (dds f s k)) (map (@dat V) (map (pair t) Rsel)) (map (@lab V) (map (pair t) Rsel)) = Ok a).
    { eexists. apply guess_axes_spec. split; [assumption|]. split; [|reflexivity].
      rewrite map_map. unfold lab. cbn [fst snd]. rewrite <- (map_map fst (pair t)). apply FinFun.Injective_map_NoDup; [intros x y E; congruence|].
      assert (Y : NoDup (map (@lab V) (map (pair (fst e)) Rsel))); [|].
      { rewrite S1. 
        assert (HN' : NoDup (map (@lab V) (entry_rows (drows pulse f s k) e))).
        { unfold entry_rows. rewrite map_map. unfold lab. cbn [fst snd]. rewrite <- (map_map fst (pair (fst e))).
          apply FinFun.Injective_map_NoDup; [intros x y E; congruence|]. fold Rr. rewrite <- Ep. exact HNp. }
        unfold entry_sel. destruct (is_all (ps_val ps)); [exact HN'|]. destruct (ps_by_id ps) eqn:Eb; [now apply NoDup_filter_map|].
        apply NoDup_pick_map; [exact HN'| |].
        - apply SS_filter_gen. now apply (desired_sorted Hu Hps Hsorted).
        - pose proof (desired_nonneg Hps) as HD. rewrite Forall_forall in *. intros x Hx. apply filter_In in Hx as [Hx _]. auto. }
      rewrite map_map in Y. unfold lab in Y. cbn [fst snd] in Y. rewrite <- (map_map fst (pair (fst e))) in Y. eapply NoDup_map_inv; exact Y. }
    destruct X as (a & ->). cbn [bind]. eauto.
Qed.
End M.
End C.
