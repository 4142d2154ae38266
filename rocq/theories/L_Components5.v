(** The frames selected are the frames asked for. *)
From Verif Require Import Base PyStr M_Files M_Machinery M_Reader M_Components S_Reader S_Coll S_Series S_Components
  L_Base L_Machinery L_Reader L_Trains L_GetArray L_Select L_Array2 L_SelTrains L_Series L_Components L_Components2 L_Components3 L_Components4.
Set Implicit Arguments. Unset Strict Implicit.
Local Open Scope string_scope.
Local Open Scope list_scope.

(** *** Selections *)
Lemma u64_nonneg : forall z, (0 <= u64 z)%Z.
Proof. intros z. unfold u64. apply Z.mod_pos_bound. lia. Qed.
Lemma py_range_nonneg : forall a b s, (0 <= a)%Z -> (1 <= s)%Z -> Forall (fun z => 0 <= z)%Z (py_range a b s).
Proof.
  intros a b s Ha Hs. apply Forall_forall. intros x Hx. apply py_range_In in Hx as (_ & m & Hm & ->); [|lia]. nia.
Qed.
Lemma check_val_nonneg : forall v pv, check_pulse_val v = Ok pv -> Forall (fun z => 0 <= z)%Z (desired pv).
Proof.
  intros [st sp step| |z|l] pv H; simpl in H.
  - destruct (_ <? 1)%Z eqn:E1; [discriminate|]. destruct (_ || _) eqn:E2; [discriminate|]. injection H as <-.
    apply orb_false_iff in E2 as [E2 _]. apply Z.ltb_ge in E1, E2. now apply py_range_nonneg.
  - discriminate.
  - injection H as <-. repeat constructor. apply u64_nonneg.
  - injection H as <-. simpl. apply Forall_map, Forall_forall. intros; apply u64_nonneg.
Qed.
Definition val_of (a : pulse_arg) : option pulse_val := match a with PulsesById v | PulsesByIndex v => Some v | PulsesOther => None end.
Lemma check_sel_inv : forall a ps, check_pulse_selection a = Ok ps ->
  exists v, check_pulse_val v = Ok (ps_val ps) /\ ((a = PulsesById v /\ ps_by_id ps = true) \/ (a = PulsesByIndex v /\ ps_by_id ps = false)).
Proof.
  intros [v|v|] ps H; simpl in H; [| |discriminate]; apply bind_ok in H as (p & H & H'); injection H' as <-; exists v; auto.
Qed.

(** Below the limit, the numbers wanted are the numbers asked for. *)
Lemma desired_asked : forall v pv z, usable_val v -> check_pulse_val v = Ok pv -> (0 <= z < MAX_PULSES)%Z ->
  (In z (desired pv) <-> asked v z).
Proof.
  intros [st sp step| |x|l] pv z Hu H Hz; simpl in H.
  - destruct (_ <? 1)%Z eqn:E1; [discriminate|]. destruct (_ || _) eqn:E2; [discriminate|]. injection H as <-.
    apply orb_false_iff in E2 as [E2 E3]. apply Z.ltb_ge in E1, E2, E3. simpl. rewrite py_range_In by lia.
    replace (0 <? match step with Some z => z | None => 1 end)%Z with true by lia. cbv iota.
    split; intros H.
    + destruct H as (H1 & n & Hn & ->). split; [eauto|]. destruct sp; [assumption|exact I].
    + destruct H as ((n & Hn & ->) & H1). split; [destruct sp; [assumption|lia]|eauto].
  - discriminate.
  - injection H as <-. simpl in *. rewrite u64_id by assumption. intuition.
  - injection H as <-. simpl in *. rewrite in_map_iff. split.
    + intros (y & <- & Hy). rewrite Forall_forall in Hu. rewrite u64_id; auto.
    + intros Hy. exists z. split; [|assumption]. rewrite Forall_forall in Hu. apply u64_id; auto.
Qed.
Lemma all_asked : forall v pv z, check_pulse_val v = Ok pv -> is_all pv = true -> (0 <= z < MAX_PULSES)%Z -> asked v z.
Proof.
  intros [st sp step| |x|l] pv z H HA Hz; simpl in H.
  - destruct (_ <? 1)%Z eqn:E1; [discriminate|]. destruct (_ || _) eqn:E2; [discriminate|]. injection H as <-.
    simpl in HA. apply andb_true_iff in HA as [HA H3]. apply andb_true_iff in HA as [H1 H2]. apply Z.eqb_eq in H1, H2, H3.
    simpl. rewrite H1, H3. split; [exists z; lia|]. destruct sp; [lia|exact I].
  - discriminate.
  - injection H as <-. discriminate.
  - injection H as <-. discriminate.
Qed.

(** *** Picking *)
Lemma pick_Forall2 : forall A (l : list A) js, Forall (inside l) js -> Forall2 (fun j x => nth_error l (Z.to_nat j) = Some x) js (pick l js).
Proof.
  intros A l js H. induction H as [|j js Hj H IH]; simpl; [constructor|]. destruct Hj as [H1 H2].
  destruct (@nth_error_ex _ l (Z.to_nat j)) as [x Hx]; [lia|]. rewrite Hx. constructor; assumption.
Qed.
Lemma filter_Forall2 : forall A (p : A -> bool) (l : list A), exists ix : list nat, StronglySorted lt ix /\
  (forall i, In i ix <-> exists x, nth_error l i = Some x /\ p x = true) /\
  Forall2 (fun i x => nth_error l i = Some x) ix (filter p l).
Proof.
  intros A p. induction l as [|a l (ix & S1 & S2 & S3)].
  - exists []. split; [constructor|]. split; [|constructor]. intros i. split; [intros []|]. intros (x & H & _). destruct i; discriminate.
  - exists (if p a then 0%nat :: map S ix else map S ix).
    assert (M1 : StronglySorted lt (map S ix)) by (eapply SS_map; [|exact S1]; simpl; intros; lia).
    assert (M2 : Forall2 (fun i x => nth_error (a :: l) i = Some x) (map S ix) (filter p l)).
    { clear -S3. induction S3; simpl; constructor; assumption. }
    simpl. destruct (p a) eqn:E.
    + split; [constructor; [assumption|]; apply Forall_forall; intros x Hx; apply in_map_iff in Hx as (y & <- & _); lia|].
      split; [|constructor; [reflexivity|exact M2]]. intros [|i]; simpl.
      * split; [intros _; eauto|now left].
      * split.
        -- intros [H|H]; [discriminate|]. apply in_map_iff in H as (j & H & Hj). injection H as ->. now apply S2.
        -- intros H. right. apply in_map. now apply S2.
    + split; [assumption|]. split; [|exact M2]. intros [|i]; simpl.
      * split; [intros H; apply in_map_iff in H as (j & H & _); discriminate|]. intros (x & H & Hx). injection H as <-. congruence.
      * split.
        -- intros H. apply in_map_iff in H as (j & H & Hj). injection H as ->. now apply S2.
        -- intros H. apply in_map. now apply S2.
Qed.

Section C.
Context {V : Type}.
Notation faccess := (faccess V).
Notation dcoll := (dcoll V).
Context (first : V -> V) (pulse : V -> Z).

Lemma sel_chosen : forall a ps (rows : list (Z * V)) (e : entry) R (ds : dataset V),
  usable_sel a -> check_pulse_selection a = Ok ps ->
  zslice rows (e_first e) (e_first e + e_count e) = R -> Z.of_nat (List.length R) = e_count e ->
  Forall (fun p => 0 <= fst p < MAX_PULSES)%Z R -> (Z.of_nat (List.length R) <= MAX_PULSES)%Z ->
  (ps_by_id ps = false -> is_all (ps_val ps) = false -> StronglySorted Z.lt (filter (fun i => i <? e_count e)%Z (desired (ps_val ps)))) ->
  chosen_frames a (fst e) (map fst R) (map (fun x => frame_of first ds (snd x)) R) (map (frame first ds) (entry_sel ps rows e)).
Proof.
  intros a ps rows e R ds Hu Hps HR HL HP HM Hinc. apply check_sel_inv in Hps as (v & Hv & Hab).
  assert (Huv : usable_val v) by (destruct Hab as [[-> _]|[-> _]]; exact Hu).
  assert (Hrow : entry_rows rows e = map (pair (fst e)) R) by (unfold entry_rows; now rewrite HR).
  unfold entry_sel. rewrite Hrow.
  assert (Fin : forall ix sel, Forall2 (fun i x => nth_error (map (pair (fst e)) R) i = Some x) ix sel ->
     Forall2 (fun i fr => exists p v, nth_error (map fst R) i = Some p /\ nth_error (map (fun x => frame_of first ds (snd x)) R) i = Some v /\ fr = (fst e, p, v))
       ix (map (frame first ds) sel)).
  { intros ix sel F. induction F as [|i x ix sel Hx F IH]; simpl; constructor; [|assumption].
    rewrite nth_error_map in Hx. destruct (nth_error R i) as [[p d]|] eqn:Er; [|discriminate]. simpl in Hx. injection Hx as <-.
    exists p, (frame_of first ds d). rewrite !nth_error_map, Er. simpl. auto. }
  destruct (is_all (ps_val ps)) eqn:EA.
  - exists (seq 0 (List.length R)). split; [apply seq_sorted|]. split.
    + intros i. rewrite in_seq, nth_error_map. split.
      * intros [_ H]. destruct (@nth_error_ex _ R i) as [[p d] Hp]; [lia|]. exists p. rewrite Hp. split; [reflexivity|].
        apply nth_error_In in Hp as Hp'. rewrite Forall_forall in HP. specialize (HP _ Hp'). simpl in HP.
        destruct Hab as [[-> _]|[-> _]]; simpl; eapply all_asked; try eassumption. lia.
      * intros (p & H & _). assert (i < List.length R)%nat; [|lia]. apply nth_error_Some. destruct (nth_error R i); [discriminate|discriminate H].
    + apply Fin. clear. assert (H : forall (R' pre : list (Z * (Z * V))), Forall2 (fun i x => nth_error (pre ++ R') i = Some x) (seq (List.length pre) (List.length R')) R').
      { induction R' as [|x R' IH]; intros pre; simpl; constructor.
        - rewrite nth_error_app2, Nat.sub_diag by lia. reflexivity.
        - specialize (IH (pre ++ [x])). rewrite app_length in IH. simpl in IH. rewrite Nat.add_1_r in IH.
          rewrite <- app_assoc in IH. exact IH. }
      specialize (H (map (pair (fst e)) R) []). rewrite map_length in H. exact H.
  - destruct (ps_by_id ps) eqn:Eb.
    + destruct Hab as [[-> _]|[-> Hf]]; [|discriminate].
      destruct (@filter_Forall2 _ (fun x : Z * (Z * V) => z_in (fst (snd x)) (desired (ps_val ps))) (map (pair (fst e)) R)) as (ix & S1 & S2 & S3).
      exists ix. split; [assumption|]. split; [|apply Fin; exact S3]. intros i. rewrite S2. rewrite !nth_error_map.
      destruct (nth_error R i) as [[p d]|] eqn:Er; simpl; [|split; intros (x & H & _); discriminate].
      apply nth_error_In in Er. rewrite Forall_forall in HP. specialize (HP _ Er). simpl in HP.
      split.
      * intros (x & H & Hx). injection H as <-. simpl in Hx. exists p. split; [reflexivity|]. apply z_in_iff in Hx.
        eapply desired_asked; eassumption.
      * intros (x & H & Hx). injection H as <-. eexists. split; [reflexivity|]. simpl. apply z_in_iff.
        eapply desired_asked; eassumption.
    + destruct Hab as [[-> Hf]|[-> _]]; [discriminate|].
      specialize (Hinc eq_refl eq_refl). set (D := filter _ (desired (ps_val ps))) in *.
      assert (HDn : Forall (inside (map (pair (fst e)) R)) D).
      { apply Forall_forall. intros j Hj. apply filter_In in Hj as [Hj1 Hj2]. apply check_val_nonneg in Hv. rewrite Forall_forall in Hv.
        specialize (Hv j Hj1). split; [assumption|]. rewrite map_length. lia. }
      exists (map Z.to_nat D). split.
      { assert (G : forall l, Forall (fun z => 0 <= z)%Z l -> StronglySorted Z.lt l -> StronglySorted lt (map Z.to_nat l)).
        { clear. intros l Hn H. induction H as [|x l H IH F]; simpl; constructor; inversion Hn; subst; [auto|].
          rewrite Forall_forall in *. intros y Hy. apply in_map_iff in Hy as (z & <- & Hz). specialize (F z Hz). lia. }
        apply G; [|assumption]. eapply Forall_impl; [|exact HDn]. intros z [H _]. exact H. }
      split.
      * intros i. rewrite nth_error_map. rewrite in_map_iff. split.
        -- intros (z & <- & Hz). rewrite Forall_forall in HDn. destruct (HDn z Hz) as [Z1 Z2]. rewrite map_length in Z2.
           destruct (@nth_error_ex _ R (Z.to_nat z)) as [[p d] Hp]; [lia|]. exists p. rewrite Hp. split; [reflexivity|].
           simpl. rewrite Z2Nat.id by assumption. apply filter_In in Hz as [Hz _].
           apply (desired_asked Huv Hv); [lia|assumption].
        -- intros (p & H & Hc). assert (Hi : (i < List.length R)%nat) by (apply nth_error_Some; destruct (nth_error R i); [discriminate|discriminate H]).
           exists (Z.of_nat i). split; [apply Nat2Z.id|]. apply filter_In. split; [|apply Z.ltb_lt; lia].
           apply (desired_asked Huv Hv); [lia|exact Hc].
      * apply Fin. pose proof (pick_Forall2 HDn) as F. clear -F.
        induction F; simpl; constructor; assumption.
Qed.

(** *** Files *)
Lemma file_has_data : forall (f : faccess) s k, module_file f s k -> fa_tids f <> [] ->
  has_data f s k /\ ~ In 0%Z (ds_item (dds f s k)).
Proof.
  intros f s k (Ht & HS & g & ds & pds & Hg & Hix & Hds & Hz & Hpds & Hit & Hb) Hne.
  assert (Hg' := Hg). rewrite <- ix_path_inst in Hg'.
  destruct (@index_file_ix V f s (key_group k) g Hg' Hix) as (E & (firsts & counts & R1 & R2 & R3 & R4 & R5 & R6) & HE).
  assert (He : ents f s k = E) by (unfold ents; rewrite R1; simpl; congruence).
  assert (Hd : fa_dataset f (ds_path "INSTRUMENT" s k) = Ok ds) by (unfold fa_dataset; now rewrite ds_path_inst, Hds).
  assert (Hp : fa_dataset f ("INSTRUMENT/" ++ s ++ "/" ++ key_group k ++ "/pulseId")%string = Ok pds)
    by (unfold fa_dataset; rewrite pulse_path, Hpds; reflexivity).
  assert (Hd' : dds f s k = ds) by (unfold dds, dset; now rewrite Hd).
  assert (Hp' : dpds f s k = pds) by (unfold dpds, dset; rewrite Hp; reflexivity).
  split; [|now rewrite Hd']. split; [assumption|]. rewrite He, Hd', Hp'. constructor; try assumption.
  - exists firsts, counts. auto.
  - apply Forall_forall. intros [t [a c]] Hin. apply In_nth_error in Hin as [p Hn]. apply HE in Hn as (N1 & N2 & N3).
    unfold e_first, e_count. simpl. eapply Hb; try eassumption. apply nth_error_Some. congruence.
Qed.

Lemma zslice_eq : forall A (l : list A) a c, (0 <= a)%Z -> (0 <= c)%Z -> zslice l a (a + c) = firstn (Z.to_nat c) (skipn (Z.to_nat a) l).
Proof. intros. unfold zslice. f_equal. lia. Qed.

Lemma train_entry : forall (f : faccess) s k t pulses rows, opened f -> module_file f s k ->
  In t (fa_tids f) -> train_frames first pulse f s k t pulses rows ->
  exists e, In e (ents f s k) /\ fst e = t /\
    pulses = map fst (zslice (drows pulse f s k) (e_first e) (e_first e + e_count e)) /\
    rows = map (fun x => frame_of first (dds f s k) (snd x)) (zslice (drows pulse f s k) (e_first e) (e_first e + e_count e)) /\
    Z.of_nat (List.length (zslice (drows pulse f s k) (e_first e) (e_first e + e_count e))) = e_count e.
Proof.
  intros f s k t pulses rows Ho Hm Htf (prows & dr & ds0 & Hpr & -> & Hdr & Hds0 & ->).
  assert (Hne : fa_tids f <> []) by (intros E; rewrite E in Htf; exact Htf).
  destruct (file_has_data Hm Hne) as [[_ Hmd] _].
  destruct Hm as (Ht & HS & g & ds & pds & Hg & Hix & Hds & Hz & Hpds & Hit & Hb).
  assert (Hg' := Hg). rewrite <- ix_path_inst in Hg'.
  destruct (@index_file_ix V f s (key_group k) g Hg' Hix) as (E & (firsts & counts & R1 & R2 & R3 & R4 & R5 & R6) & HE).
  assert (He : ents f s k = E) by (unfold ents; rewrite R1; simpl; congruence).
  assert (Hd' : dds f s k = ds) by (unfold dds, dset, fa_dataset; rewrite ds_path_inst, Hds; reflexivity).
  assert (Hp' : dpds f s k = pds) by (unfold dpds, dset, fa_dataset; rewrite pulse_path, Hpds; reflexivity).
  apply In_nth_error in Htf as [p Hp].
  destruct (@raw_position V f p t Ho Ht Hp) as (raw & Hraw & Hrp & Hfirst).
  pose proof (nth_error_Some_lt _ _ Hp) as Hl. destruct Hix as ((_ & Hex) & _).
  destruct (Hex p Hl) as (a & c & Ha & Hc & Ha0 & Hcr).
  assert (Hn : nth_error E p = Some (t, (a, c))) by (apply HE; auto).
  assert (Pos : forall raw' q, h5_trainid (fa_file f) = Some raw' -> nth_error raw' q = Some t ->
     (forall r, (r < q)%nat -> nth_error raw' r <> Some t) -> q = p).
  { intros raw' q H1 H2 H3. rewrite Hraw in H1. injection H1 as <-.
    destruct (Nat.lt_trichotomy q p) as [H|[H|H]]; [|assumption|].
    - exfalso. exact (Hfirst q H H2).
    - exfalso. exact (H3 p H Hrp). }
  exists (t, (a, c)). unfold e_first, e_count. cbn [fst snd]. rewrite He. split; [eapply nth_error_In; exact Hn|]. split; [reflexivity|].
  assert (Hc0 : (0 <= c)%Z) by (unfold u64_range in Hcr; lia).
  assert (Hbb := Hb p a c Hl Ha Hc). destruct Hbb as [B1 B2].
  unfold drows. rewrite Hd', Hp', <- zslice_combine.
  assert (LD : Z.of_nat (List.length (zslice (ds_rows ds) a (a + c))) = c) by (apply zslice_length; assumption).
  assert (LP : Z.of_nat (List.length (zslice (map pulse (ds_rows pds)) a (a + c))) = c) by (apply zslice_length; [assumption|assumption|now rewrite map_length]).
  split; [|split].
  - destruct Hpr as (raw' & q & g' & a' & c' & pds' & Q1 & Q2 & Q3 & Q4 & Q5 & Q6 & Q7 & ->).
    rewrite (Pos raw' q Q1 Q2 Q3) in *. rewrite pulse_index_key, Hg in Q4. injection Q4 as <-. rewrite Ha in Q5. rewrite Hc in Q6.
    injection Q5 as <-. injection Q6 as <-. rewrite Hpds in Q7. injection Q7 as <-.
    rewrite map_fst_combine by lia. rewrite <- zslice_eq by assumption. unfold zslice. now rewrite <- firstn_map, <- skipn_map.
  - destruct Hdr as (raw' & q & g' & a' & c' & ds' & Q1 & Q2 & Q3 & Q4 & Q5 & Q6 & Q7 & ->).
    rewrite (Pos raw' q Q1 Q2 Q3) in *. rewrite Hg in Q4. injection Q4 as <-. rewrite Ha in Q5. rewrite Hc in Q6.
    injection Q5 as <-. injection Q6 as <-. rewrite Hds in Q7. injection Q7 as <-. rewrite Hds in Hds0. injection Hds0 as <-.
    rewrite <- (map_map snd (frame_of first ds)), map_snd_combine by lia. now rewrite <- zslice_eq.
  - rewrite combine_length. lia.
Qed.

(** Every train of a file has frames. *)
Lemma train_frames_exist : forall (f : faccess) s k t, opened f -> module_file f s k -> In t (fa_tids f) ->
  exists pulses rows, train_frames first pulse f s k t pulses rows.
Proof.
  intros f s k t Ho (Ht & HS & g & ds & pds & Hg & Hix & Hds & Hz & Hpds & Hit & Hb) Htf.
  apply In_nth_error in Htf as [p Hp].
  destruct (@raw_position V f p t Ho Ht Hp) as (raw & Hraw & Hrp & Hfirst).
  pose proof (nth_error_Some_lt _ _ Hp) as Hl. destruct Hix as ((_ & Hex) & _).
  destruct (Hex p Hl) as (a & c & Ha & Hc & Ha0 & Hcr).
  eexists. eexists. eexists. eexists. exists ds. split; [|split; [reflexivity|split; [|split; [exact Hds|reflexivity]]]].
  - exists raw, p, g, a, c, pds. rewrite pulse_index_key. repeat split; try eassumption.
  - exists raw, p, g, a, c, ds. repeat split; try eassumption.
Qed.
End C.
