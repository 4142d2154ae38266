(** Reading a module of a detector. *)
From Verif Require Import Base PyStr M_Files M_Machinery M_Reader M_Glob M_Select M_Series M_Stacking M_Components
  S_Reader S_Coll S_Glob S_Select S_Avail S_Series S_Stacking S_Components
  L_Base L_Machinery L_Reader L_GetArray L_Select L_Trains L_SelTrains L_Array2 L_Sel2 L_Hist L_Series L_Writer5
  L_Components L_Components2 L_Components3 L_Components4 L_Components5 L_Components6 L_Components7.
Set Implicit Arguments. Unset Strict Implicit.
Local Open Scope string_scope.
Local Open Scope list_scope.

Lemma NoDup_filter_map : forall A B (h : A -> B) p l, NoDup (map h l) -> NoDup (map h (filter p l)).
Proof.
  intros A B h p. induction l as [|x l IH]; simpl; intros H; [constructor|]. inversion H; subst.
  destruct (p x); simpl; [|auto]. constructor; [|auto]. intros X. apply H2. apply in_map_iff in X as (y & <- & X).
  apply in_map. apply filter_In in X. tauto.
Qed.
Lemma pick_incl : forall A (l : list A) js, incl (pick l js) l.
Proof.
  intros A l. induction js as [|j js IH]; simpl; [intros x []|]. intros x. destruct (nth_error l (Z.to_nat j)) eqn:E; simpl; [|apply IH].
  intros [<-|H]; [eapply nth_error_In; eassumption|now apply IH].
Qed.
Lemma NoDup_pick_map : forall A B (h : A -> B) l js, NoDup (map h l) -> StronglySorted Z.lt js -> Forall (fun z => 0 <= z)%Z js -> NoDup (map h (pick l js)).
Proof.
  intros A B h l js HN HS. induction HS as [|j js HS IH Hj]; intros H0; simpl; [constructor|]. inversion H0; subst.
  destruct (nth_error l (Z.to_nat j)) as [x|] eqn:E; [|auto]. simpl. constructor; [|auto].
  intros X. apply in_map_iff in X as (y & Ey & X).
  assert (G : forall js y, In y (pick l js) -> exists j, In j js /\ nth_error l (Z.to_nat j) = Some y).
  { clear. induction js as [|j js IH]; simpl; [intros y []|]. intros y. destruct (nth_error l (Z.to_nat j)) eqn:E; simpl.
    - intros [<-|H]; [eauto|]. destruct (IH y H) as (j' & H1 & H2). eauto.
    - intros H. destruct (IH y H) as (j' & H1 & H2). eauto. }
  apply G in X as (j' & Hj' & E'). rewrite Forall_forall in *. specialize (Hj j' Hj'). assert (0 <= j)%Z by assumption.
  assert (Z.to_nat j = Z.to_nat j').
  { apply (proj1 (NoDup_nth_error (map h l)) HN).
    - rewrite map_length. apply nth_error_Some. congruence.
    - rewrite !nth_error_map, E, E'. simpl. now rewrite Ey. }
  lia.
Qed.

Lemma StronglySorted_app_inv : forall A (P : A -> A -> Prop) a b, StronglySorted P (a ++ b) -> StronglySorted P a /\ StronglySorted P b /\ Forall (fun x => Forall (P x) b) a.
Proof.
  intros A P a b. induction a as [|x a IH]; simpl; intros H; [repeat split; auto; constructor|].
  inversion H; subst. destruct (IH H2) as (I1 & I2 & I3). apply Forall_app in H3 as [H3 H4]. repeat split; [constructor; assumption|assumption|constructor; assumption].
Qed.

Section C.
Context {V : Type}.
Notation faccess := (faccess V).
Notation dcoll := (dcoll V).
Context (first : V -> V) (pulse : V -> Z).
Context (d : dcoll) (name : string) (modules : option (list Z)) (min : Z) (m : mpx V).
Context (R : reachable d) (K : distinct_kinds d) (G : good_files d).
Context (HM : made d name modules min m).
Context (s : string) (n : Z) (Hm : is_module_of d name modules s n) (k : string) (HF : module_files d s k).

Lemma det_good : good_files (mx_data m).
Proof.
  destruct (mk_narrow HM) as (N1 & _). unfold good_files in *. rewrite Forall_forall in *. auto.
Qed.
Lemma det_kinds : distinct_kinds (mx_data m).
Proof. destruct (mk_narrow HM) as (N1 & _). intros f f' x H1 H2. apply K; auto. Qed.
Lemma det_source : forall f, In f (dc_files (mx_data m)) -> In s (fa_sources f) -> In s (dc_sources (mx_data m)).
Proof.
  intros f Hf Hs. apply (mk_sources HM). split; [|eauto]. apply module_list_In in Hm. apply (in_map fst) in Hm. exact Hm.
Qed.
Let fs := source_files (dc_files (mx_data m)) s.

Lemma det_holds : forall f t, In t (mx_train_ids m) -> (In f fs /\ In t (fa_tids f) <-> holds d f s t).
Proof.
  intros f t Ht. destruct (mk_narrow HM) as (N1 & N2 & N3 & N4). unfold fs. rewrite source_files_In. unfold holds. split.
  - intros ((H1 & H2) & H3). auto.
  - intros (H1 & H2 & H3).
    (* the file is kept *)
    assert (Hk : In f (dc_files (mx_data m))); [|tauto].
    apply (@mk_kept _ _ _ _ _ _ HM f s t); [|assumption|split; auto].
    apply module_list_In in Hm. apply (in_map fst) in Hm. exact Hm.
Qed.

Lemma fs_data : forall f, In f fs -> has_data f s k /\ ~ In 0%Z (ds_item (dds f s k)) /\ module_file f s k /\ opened f.
Proof.
  intros f Hf. apply source_files_In in Hf as [Hf Hs]. destruct (mk_narrow HM) as (N1 & _).
  destruct (mk_files HM Hf) as (t & Ht & _). assert (Hne : fa_tids f <> []) by (intros E; rewrite E in Ht; exact Ht).
  assert (Hmf := HF (N1 f Hf) Hs). destruct (file_has_data Hmf Hne) as [H1 H2]. split; [assumption|]. split; [assumption|]. split; [assumption|].
  destruct (reachable_inv (mk_reach HM)) as [_ Ho]. rewrite Forall_forall in Ho. auto.
Qed.
Lemma fs_nodup : NoDup (flat_map (@fa_tids V) fs).
Proof.
  destruct (reachable_inv (mk_reach HM)) as [Hb Ho]. apply source_files_nodup; [assumption|assumption|apply det_good].
Qed.
Lemma chunks_ok : List.concat (mx_chunks m) = mx_train_ids m /\ Forall (fun c => exists a b, is_run c a b) (mx_chunks m) /\
  NoDup (List.concat (mx_chunks m)).
Proof.
  destruct (split_chunks_spec (mk_some HM)) as (H1 & H2 & _). split; [exact H1|]. split; [exact H2|].
  unfold mx_chunks. rewrite H1. apply StronglySorted_NoDup_lt, (mk_sorted HM).
Qed.

Context (arg : pulse_arg) (ps : psel) (Hu : usable_sel arg) (Hps : check_pulse_selection arg = Ok ps).
Lemma desired_nonneg : Forall (fun z => 0 <= z)%Z (desired (ps_val ps)).
Proof. apply check_sel_inv in Hps as (v & Hv & _). eapply check_val_nonneg; eassumption. Qed.

Definition in_trains (f : faccess) : Prop := In f fs.
Lemma module_frames : forall a, get_module_pulse_data first pulse m s k ps = Ok a ->
  (forall t f e, In t (mx_train_ids m) -> In f fs -> In e (ents f s k) -> fst e = t ->
     frames_at t a = map (frame first (dds f s k)) (entry_sel ps (drows pulse f s k) e) /\
     (ps_by_id ps = false -> is_all (ps_val ps) = false -> StronglySorted Z.lt (filter (fun i => i <? e_count e)%Z (desired (ps_val ps))))) /\
  (forall t, ~ (In t (mx_train_ids m) /\ exists f, holds d f s t) -> frames_at t a = []).
Proof.
  intros a Ha. destruct chunks_ok as (C1 & C2 & C3).
  assert (A1 : forall f, In f fs -> has_data f s k) by (intros f Hf; apply (fs_data Hf)).
  assert (A2 : forall f, In f fs -> ~ In 0%Z (ds_item (dds f s k))) by (intros f Hf; apply (fs_data Hf)).
  assert (F := fun t => @frames_of_train V first pulse m s k ps A1 A2 desired_nonneg C2 fs_nodup C3 a t Ha).
  assert (P := proj1 (@module_data_spec V first pulse m s k ps A1 desired_nonneg C2 a) Ha). destruct P as [P _].
  rewrite C1 in F. split.
  - intros t f e Ht Hf He Het. destruct (F t) as (F1 & _). split; [eapply F1; eassumption|]. intros B1 B2.
    rewrite <- C1 in Ht. apply in_concat in Ht as (c & Hc & Htc). destruct (P f c Hf Hc) as [_ P2].
    assert (Hin : In e (in_chunk f s k c)) by (apply filter_In; split; [assumption|rewrite Het; now apply z_in_iff]).
    destruct P2 as (_ & _ & P3); [unfold meets; destruct (in_chunk f s k c); [destruct Hin|reflexivity]|].
    specialize (P3 B1 B2). clear -P3 Hin. unfold index_positions in P3. induction (in_chunk f s k c) as [|x l IH]; [destruct Hin|].
    simpl in P3. apply StronglySorted_app_inv in P3 as (Q1 & Q2 & _). destruct Hin as [->|Hin]; [|auto].
    clear -Q1. revert Q1. generalize (filter (fun i => (i <? e_count e)%Z) (desired (ps_val ps))). intros l H.
    remember (map (Z.add (e_first e - 0)) l) as l' eqn:E. revert l E. induction H as [|x l' H IH Hx]; intros l E.
    + destruct l; [constructor|discriminate].
    + destruct l as [|y l]; [discriminate|]. injection E as -> ->. constructor; [now apply IH|].
      rewrite Forall_map in Hx. rewrite Forall_forall in *. intros z Hz. specialize (Hx z Hz). lia.
  - intros t Hn. destruct (F t) as (F1 & F2 & F3). destruct (in_dec Z.eq_dec t (mx_train_ids m)) as [Ht|Ht]; [|now apply F2].
    apply F3. intros f Hf Htf. apply Hn. split; [assumption|]. exists f. now apply det_holds.
Qed.

(** The chosen frames of the trains, no others. *)
Theorem module_chosen : forall a, pulses_limited first pulse d s k -> get_module_pulse_data first pulse m s k ps = Ok a ->
  (forall t f pulses rows, In t (mx_train_ids m) -> holds d f s t -> train_frames first pulse f s k t pulses rows ->
     chosen_frames arg t pulses rows (frames_at t a)) /\
  (forall t, ~ (In t (mx_train_ids m) /\ exists f, holds d f s t) -> frames_at t a = []).
Proof.
  intros a HL Ha. destruct (module_frames Ha) as [M1 M2]. split; [|exact M2].
  intros t f pulses rows Ht Hh Htf. destruct (proj2 (@det_holds f t Ht) Hh) as [Hf Hft].
  destruct (fs_data Hf) as (_ & _ & Hmf & Ho). destruct (HL f t pulses rows Hh Htf) as [L1 L2].
  destruct (train_entry Ho Hmf Hft Htf) as (e & He & Het & -> & -> & Hlen).
  destruct (M1 t f e Ht Hf He Het) as [-> Hs]. subst t.
  apply sel_chosen; try assumption; try reflexivity.
  - rewrite Forall_map in L1. exact L1.
  - rewrite map_length in L2. exact L2.
Qed.
(** Everything is returned for by_id[:] and by_index[:]. *)
Theorem module_everything : forall a, is_all (ps_val ps) = true -> get_module_pulse_data first pulse m s k ps = Ok a ->
  forall t f pulses rows, In t (mx_train_ids m) -> holds d f s t -> train_frames first pulse f s k t pulses rows ->
     frames_at t a = map (fun pv => (t, fst pv, snd pv)) (combine pulses rows).
Proof.
  intros a Hall Ha t f pulses rows Ht Hh Htf. destruct (module_frames Ha) as [M1 _].
  destruct (proj2 (@det_holds f t Ht) Hh) as [Hf Hft]. destruct (fs_data Hf) as (_ & _ & Hmf & Ho).
  destruct (train_entry Ho Hmf Hft Htf) as (e & He & Het & -> & -> & Hlen).
  destruct (M1 t f e Ht Hf He Het) as [-> _]. unfold entry_sel. rewrite Hall. unfold entry_rows. rewrite map_map, combine_maps, map_map.
  rewrite Het. reflexivity.
Qed.

(** A detector train missing between two trains of a file is refused. *)
Theorem module_gap : forall f x y t, In f (dc_files (mx_data m)) -> In s (fa_sources f) -> In t (mx_train_ids m) ->
  In x (fa_tids f) -> In y (fa_tids f) -> (x <= t <= y)%Z -> ~ In t (fa_tids f) ->
  exists e, get_module_pulse_data first pulse m s k ps = Err e.
Proof.
  intros f x y t Hf Hs Ht Hx Hy Hxy Hn. destruct chunks_ok as (C1 & C2 & C3).
  assert (A1 : forall f, In f fs -> has_data f s k) by (intros f0 Hf0; apply (fs_data Hf0)).
  destruct (get_module_pulse_data first pulse m s k ps) as [a|e] eqn:Ha; [|eauto]. exfalso.
  apply (@module_data_spec V first pulse m s k ps A1 desired_nonneg C2 a) in Ha as [P _].
  rewrite <- C1 in Ht. apply in_concat in Ht as (c & Hc & Htc).
  destruct (P f c (proj2 (source_files_In _ _ _) (conj Hf Hs)) Hc) as [Hg _]. apply Hn. exact (Hg t x y Htc Hx Hy Hxy).
Qed.
End C.
