(** The two ways of putting detector data together give the same frames (C97): an array of a detector object by module, train
    and pulse, and the data of a train stacked by stack_detector_data. *)
From Verif Require Import Base PyStr M_Files M_Machinery M_Reader M_Glob M_Select M_Series M_Nd M_Stacking M_Components M_Grid
  S_Reader S_Coll S_Glob S_Avail S_Series S_Stacking S_Components S_Grid
  L_Base L_GetArray L_Select L_Hist L_Trains L_Sel2 L_Series L_Components5 L_Components6 L_Components7 L_Components12 L_Export3 L_Check L_Check2 L_Check3 Ex_Files P_Reader P_Series P_Stacking P_Components P_Grid.
Set Implicit Arguments.
Local Open Scope string_scope.
Local Open Scope list_scope.

Section Arrays.
Context {V W : Type}.
(** The numpy array for the value of a key: [elem v] are the numbers of the row v, which has the shape [shape]; rows together
    get a dimension in front. *)
Definition reads_as (conv : string -> tval V -> nd W) (k dt : string) (shape : list nat) (elem : V -> list nat -> W) : Prop :=
  (forall v, nd_dtype (conv k (One v)) = dt /\ nd_shape (conv k (One v)) = shape /\ nd_at (conv k (One v)) = elem v) /\
  (forall rows, nd_dtype (conv k (Many rows)) = dt /\ nd_shape (conv k (Many rows)) = List.length rows :: shape /\
     forall i v idx, nth_error rows i = Some v -> nd_at (conv k (Many rows)) (i :: idx) = elem v idx).
(** The dictionary of a train as stack_detector_data gets it. *)
Definition train_arrays (conv : string -> tval V -> nd W) (r : list (string * src_data V)) : list (string * list (string * nd W)) :=
  map (fun sd => (fst sd, map (fun kv => (fst kv, conv (fst kv) (snd kv))) (sd_keys (snd sd)))) r.

Lemma dict_get_map : forall (conv : string -> tval V -> nd W) k (l : list (string * tval V)),
  dict_get k (map (fun kv => (fst kv, conv (fst kv) (snd kv))) l) = option_map (conv k) (dict_get k l).
Proof.
  intros conv k. induction l as [|[k' v] l IH]; [reflexivity|]. cbn [map dict_get fst snd]. destruct (String.eqb_spec k k') as [->|]; [reflexivity|exact IH].
Qed.
Lemma fold_set_nodup : forall (l : list (src_data V)) acc, NoDup (dict_keys acc) -> NoDup (dict_keys (fold_left (fun acc sd => dict_set (sd_source sd) sd acc) l acc)).
Proof. induction l as [|x l IH]; intros acc H; [exact H|]. cbn [fold_left]. apply IH. now apply dict_set_nodup. Qed.
Lemma train_keys_nodup : forall (d : dcoll V) t t' r, train_from_id d t = Ok (t', r) -> NoDup (dict_keys r).
Proof.
  intros d t t' r H. unfold train_from_id in H. destruct (negb _); [discriminate|]. apply bind_ok in H as (c & _ & H). apply bind_ok in H as (i & _ & H).
  injection H as _ <-. apply fold_set_nodup. constructor.
Qed.
End Arrays.

Lemma module_nonneg : forall s n, module_number s n -> (0 <= n)%Z.
Proof.
  intros s n (x1 & x2 & x3 & _ & _ & AD & -> & _). clear -AD. induction x2 as [|ch x2 IH]; [reflexivity|]. destruct AD as [AD1 AD2]. cbn [decimal].
  assert (0 <= digit_val ch)%Z by (unfold is_digit, digit_val in *; lia). specialize (IH AD2). pose proof (Z.pow_nonneg 10 (Z.of_nat (String.length x2)) ltac:(lia)). nia.
Qed.
(** A train has one array for a module. *)
Lemma is_module_fun : forall W (train : @M_Stacking.train_data W) k n a b, is_module train k n a -> is_module train k n b -> a = b.
Proof.
  intros W train k n a b (p1 & s1 & k1 & q1 & E1 & F1 & G1 & L1) (p2 & s2 & k2 & q2 & E2 & F2 & G2 & L2).
  rewrite E1 in E2. clear E1. revert p2 E2. induction p1 as [|x p1 IH]; intros [|y p2] E; cbn in E.
  - injection E as <- <- <-. congruence.
  - injection E as _ ->. exfalso. rewrite (L1 s2 k2) in G2; [discriminate|apply in_or_app; right; now left|exact F2].
  - injection E as _ <-. exfalso. rewrite (L2 s1 k1) in G1; [discriminate|apply in_or_app; right; now left|exact F1].
  - injection E as _ E. eauto.
Qed.

(** Cell (n, t, p) of the labelled array holds a frame exactly if the file of module n has a frame with pulse ID p for train
    t; the stacked array of the train has it at the module n and at the place of the frame in the train. *)
Theorem C97_same_frames : forall (V W : Type) (first : V -> V) (pulse : V -> Z) tag (d : dcoll V) nm modules min m k g t r conv dt shape elem
    (cast : string -> W -> W) axis nmod fill st c ax,
  detector_of tag d nm modules min m -> good_modules first pulse d m modules k -> good_collection (mx_data m) ->
  starts_with "image." k = true ->
  (forall s n, is_module_of d (mx_name m) modules s n -> module_number s n /\ (In s (dc_sources (mx_data m)) -> available (mx_data m) s k)) ->
  det_get_grid first pulse m k (PulsesByIndex (PvSlice None None None)) = Ok (PulseGrid g) ->
  In t (mx_train_ids m) -> train_from_id (mx_data m) t = Ok (t, r) -> reads_as conv k dt shape elem ->
  stackable (train_arrays conv r) k axis nmod (c :: shape) dt ax -> stack_detector_data cast (train_arrays conv r) k axis nmod fill = Ok st ->
  forall i n j l p v, nth_error (dg_modules g) i = Some n -> nth_error (dg_trains g) j = Some t -> nth_error (dg_pulses g) l = Some p ->
    cell3 (dg_cells g) i j l = Some (Some v) ->
    exists s f pulses rows q ds row, is_module_of d (mx_name m) modules s n /\ holds d f s t /\ train_frames first pulse f s k t pulses rows /\
      nth_error pulses q = Some p /\ (q < c)%nat /\
      dict_get (data_key false s k) (h5_data (fa_file f)) = Some ds /\ v = frame_of first ds row /\
      forall idx, in_range shape idx -> nd_at st (insert_at ax (Z.to_nat n) (q :: idx)) = elem row idx.
Proof.
  intros V W first pulse tag d nm modules min m k g t r conv dt shape elem cast axis nmod fill st c ax HD HG GC Hk MN HGr Ht HT RA HS HSt i n j l p v N1 N2 N3 Hc.
  assert (HA : forall s n, is_module_of d (mx_name m) modules s n -> In s (dc_sources (mx_data m)) -> available (mx_data m) s k) by (intros s' n' Q; exact (proj2 (MN s' n' Q))).
  assert (MN' : forall s n, is_module_of d (mx_name m) modules s n -> module_number s n) by (intros s' n' Q; exact (proj1 (MN s' n' Q))). clear MN. rename MN' into MN.
  pose proof (detector_made HD) as HM. destruct HD as (R & K & G & Co & Hop).
  assert (HD : detector_of tag d nm modules min m) by (unfold detector_of; auto).
  assert (US : usable_sel (PulsesByIndex (PvSlice None None None))) by (cbn; lia).
  destruct (@C77_grid _ _ _ _ _ _ _ _ _ _ _ _ HD HG US Hk HGr) as (g' & E & _ & _ & _ & _ & _ & _ & _ & CELL). injection E as <-.
  apply (CELL i j l n t p N1 N2 N3) in Hc. destruct Hc as (s & f & pulses & rows & q & Hs & _ & Hh & HF & P1 & P2 & _).
  assert (HF' := HF). destruct HF as (prows & drows & ds & F1 & F2 & F3 & F4 & F5).
  rewrite F5 in P2. rewrite nth_error_map in P2. destruct (nth_error drows q) as [row|] eqn:DR; [|discriminate]. cbn [option_map] in P2. injection P2 as P2.
  (* the source in the selected data *)
  assert (Hm : In s (map fst (module_list d (mx_name m) modules))) by (apply in_map_iff; exists (s, n); split; [reflexivity|now apply module_list_In]).
  assert (Hf : In f (dc_files (mx_data m))) by (eapply (mk_kept HM); eassumption).
  destruct (reachable_inv (mk_reach HM)) as [Hb Ho]. destruct (reachable_inv R) as [Hb0 _].
  assert (Hsrc : In s (dc_sources (mx_data m))) by (apply (mk_sources HM); split; [exact Hm|exists f; split; [exact Hf|apply Hh]]).
  assert (Hh' : holds (mx_data m) f s t) by (split; [exact Hf|split; apply Hh]).
  assert (KF : str_in s (dc_ctrl (mx_data m)) = false).
  { apply not_true_iff_false. intros X. apply str_in_iff in X. destruct Hb as (_ & Hbc & _). apply Hbc in X as (f1 & A1 & A2 & _).
    destruct Hs as [Hi _]. destruct Hb0 as (_ & _ & Hbi). apply Hbi in Hi as (f2 & B1 & B2 & _).
    destruct (mk_narrow HM) as (NI & _). exact (K f1 f2 s (NI f1 A1) B1 A2 B2). }
  assert (ONE : forall s', is_module_of d (mx_name m) modules s' n -> s' = s).
  { intros s' Hs'. apply module_list_In in Hs'. assert (Hs0 : In (s, n) (module_list d (mx_name m) modules)) by now apply module_list_In.
    pose proof (mk_nodup HM) as ND. clear -Hs' Hs0 ND. induction (module_list d (mx_name m) modules) as [|[a b] L IH]; [destruct Hs0|]. cbn [map] in ND. inversion ND as [|? ? Q1 Q2]; subst.
    destruct Hs0 as [E|Hs0], Hs' as [E'|Hs']; [congruence| | |auto].
    - injection E as -> ->. exfalso. apply Q1. apply in_map_iff. exists (s', n). auto.
    - injection E' as -> ->. exfalso. apply Q1. apply in_map_iff. exists (s, n). auto. }
  assert (AV : available (mx_data m) s k) by (eapply HA; eassumption).
  destruct AV as (_ & ks & Hks & Hkk).
  (* the value in the train *)
  destruct (@train_from_id_correct V (mx_data m) t (mk_reach HM) GC Ht) as (r' & HT' & TK & TV). rewrite HT in HT'. injection HT' as <-.
  destruct (TV s Hsrc) as (sd & Hsd & SV1 & SV2 & SV). destruct (SV ks Hks) as (_ & _ & SV3). destruct (SV3 k f Hkk Hh') as (drows' & D1 & D2).
  rewrite KF in D1. assert (drows' = drows) as -> by (eapply file_rows_fun; eassumption).
  pose proof (@train_keys_nodup V _ _ _ _ HT) as ND.
  assert (NE : drows <> []) by (intros X; rewrite X in DR; destruct q; discriminate).
  assert (VAL : exists val, dict_get k (sd_keys sd) = Some val /\ ((exists v1, drows = [v1] /\ val = One v1) \/ val = Many drows)).
  { rewrite D2. destruct drows as [|v1 [|v2 dr]]; [congruence| |]; cbn [value_of]; eexists; (split; [reflexivity|]); [left; eauto|right; reflexivity]. }
  destruct VAL as (val & VAL & VK).
  (* this module in the train *)
  assert (SP : exists before after, r = before ++ (s, sd) :: after) by (apply in_split, dict_get_In; exact Hsd). destruct SP as (before & after & SP).
  assert (FM : forall s' sd', In (s', sd') r -> find_module s' = Some n -> s' = s).
  { intros s' sd' I FM. apply ONE. assert (In s' (dc_sources (mx_data m))) as J by (apply TK; apply in_map_iff; exists (s', sd'); auto).
    apply (mk_sources HM) in J as (J & _). apply in_map_iff in J as ([s2 n2] & E2 & J). cbn [fst] in E2. subst s2. apply module_list_In in J.
    pose proof (MN s' n2 J) as M2. apply C36_module_number in M2. rewrite FM in M2. injection M2 as ->. exact J. }
  assert (IM : is_module (train_arrays conv r) k n (conv k val)).
  { exists (train_arrays conv before), s, (map (fun kv => (fst kv, conv (fst kv) (snd kv))) (sd_keys sd)), (train_arrays conv after).
    split; [rewrite SP; unfold train_arrays; rewrite map_app; reflexivity|]. split; [apply C36_module_number, MN, Hs|]. split; [rewrite dict_get_map, VAL; reflexivity|].
    intros s' ks' I F'. exfalso. apply in_map_iff in I as ([s2 sd2] & E2 & I). injection E2 as -> _.
    assert (s' = s) as -> by (apply (FM s' sd2); [rewrite SP; apply in_or_app; right; now right|exact F']).
    unfold dict_keys in ND. rewrite SP, map_app in ND. cbn [map fst] in ND. apply NoDup_remove_2 in ND. apply ND, in_or_app. right. apply in_map_iff. exists (s, sd2). auto. }
  destruct (@C36_result _ cast (train_arrays conv r) k axis nmod fill st (c :: shape) dt ax HSt HS) as (_ & _ & VALS). destruct HS as (_ & S2 & _ & S4 & _).
  assert (IA : In (conv k val) (arrays_of (train_arrays conv r) k)).
  { apply in_flat_map. exists (s, map (fun kv => (fst kv, conv (fst kv) (snd kv))) (sd_keys sd)). split.
    - rewrite SP. apply in_map_iff. exists (s, sd). split; [reflexivity|apply in_or_app; right; now left].
    - cbn [snd]. rewrite dict_get_map, VAL. now left. }
  destruct RA as [RA1 RA2]. destruct (S2 _ IA) as [_ SH].
  destruct VK as [(v1 & -> & ->)| ->].
  { exfalso. destruct (RA1 v1) as (_ & RS & _). rewrite RS in SH. destruct SH as [SH|[_ SH]]; cbn [tl] in SH; apply (f_equal (@List.length nat)) in SH; cbn [List.length] in SH; lia. }
  destruct (RA2 drows) as (_ & RS & RE). assert (c = List.length drows) as CL.
  { rewrite RS in SH. destruct SH as [SH|[_ SH]]; [congruence|]. cbn [tl] in SH. injection SH as SH. destruct drows; [congruence|discriminate]. }
  assert (QC : (q < c)%nat) by (rewrite CL; apply nth_error_Some; congruence).
  exists s, f, pulses, rows, q, ds, row. split; [exact Hs|]. split; [exact Hh|]. split; [exact HF'|]. split; [exact P1|]. split; [exact QC|]. split; [exact F4|]. split; [now symmetry|].
  intros idx IR. assert (SHAPE : nd_shape (conv k (Many drows)) = c :: shape) by (rewrite RS, CL; reflexivity).
  pose proof (S4 n _ IM SHAPE) as LT. pose proof (module_nonneg (MN s n Hs)) as N0.
  destruct (VALS (Z.to_nat n) (q :: idx)) as [(a & A1 & _ & A3)|(A1 & _)]; [lia|constructor; assumption| |].
  - rewrite Z2Nat.id in A1 by lia. rewrite A3, (is_module_fun A1 IM). now apply RE.
  - exfalso. rewrite Z2Nat.id in A1 by lia. exact (A1 _ IM SHAPE).
Qed.
Print Assumptions C97_same_frames.
(** And the other way round: each frame of a module in the stacked array is the cell of that module, of the train and of the
    pulse ID of the frame. *)
Theorem C97_all_frames : forall (V W : Type) (first : V -> V) (pulse : V -> Z) tag (d : dcoll V) nm modules min m k g t r conv dt shape elem
    (cast : string -> W -> W) axis nmod fill st c ax,
  detector_of tag d nm modules min m -> good_modules first pulse d m modules k -> good_collection (mx_data m) ->
  starts_with "image." k = true ->
  (forall s n, is_module_of d (mx_name m) modules s n -> module_number s n /\ (In s (dc_sources (mx_data m)) -> available (mx_data m) s k)) ->
  det_get_grid first pulse m k (PulsesByIndex (PvSlice None None None)) = Ok (PulseGrid g) ->
  In t (mx_train_ids m) -> train_from_id (mx_data m) t = Ok (t, r) -> reads_as conv k dt shape elem ->
  stackable (train_arrays conv r) k axis nmod (c :: shape) dt ax -> stack_detector_data cast (train_arrays conv r) k axis nmod fill = Ok st ->
  forall n a q, is_module (train_arrays conv r) k n a -> nd_shape a = c :: shape -> (q < c)%nat ->
    exists i j l p v s f pulses rows ds row, is_module_of d (mx_name m) modules s n /\ holds d f s t /\ train_frames first pulse f s k t pulses rows /\
      nth_error pulses q = Some p /\ nth_error (dg_modules g) i = Some n /\ nth_error (dg_trains g) j = Some t /\ nth_error (dg_pulses g) l = Some p /\
      dict_get (data_key false s k) (h5_data (fa_file f)) = Some ds /\ v = frame_of first ds row /\ cell3 (dg_cells g) i j l = Some (Some v) /\
      forall idx, in_range shape idx -> nd_at st (insert_at ax (Z.to_nat n) (q :: idx)) = elem row idx.
Proof.
  intros V W first pulse tag d nm modules min m k g t r conv dt shape elem cast axis nmod fill st c ax HD HG GC Hk MN HGr Ht HT RA HS HSt n a q IM SHAPE QC. pose proof Logic.I as I0.
  pose proof (detector_made HD) as HM. pose proof (mk_narrow HM) as NR. destruct (HD) as (R & K & _).
  assert (US : usable_sel (PulsesByIndex (PvSlice None None None))) by (cbn; lia).
  destruct (@C77_grid _ _ _ _ _ _ _ _ _ _ _ _ HD HG US Hk HGr) as (g' & E & _ & _ & _ & LM & LT & LP & _ & CELL). injection E as <-.
  destruct (IM) as (b1 & s & k1 & a1 & E1 & Q1 & Q2 & _). assert (I : In (s, k1) (train_arrays conv r)) by (rewrite E1; apply in_or_app; right; now left).
  apply in_map_iff in I as ([s2 sd] & E2 & I). cbn [fst snd] in E2. injection E2 as -> <-. rewrite dict_get_map in Q2.
  destruct (dict_get k (sd_keys sd)) as [val|] eqn:VAL; [|discriminate]. injection Q2 as Q2.
  destruct (@train_from_id_correct V (mx_data m) t (mk_reach HM) GC Ht) as (r' & HT' & TK & TV). rewrite HT in HT'. injection HT' as <-.
  assert (Hsrc : In s (dc_sources (mx_data m))) by (apply TK; apply in_map_iff; exists (s, sd); auto).
  pose proof (@train_keys_nodup V _ _ _ _ HT) as ND. pose proof (dget_nodup ND I) as Hsd.
  destruct (TV s Hsrc) as (sd' & Hsd' & SV1 & SV2 & SV). rewrite Hsd in Hsd'. injection Hsd' as <-.
  assert (Hs : is_module_of d (mx_name m) modules s n).
  { apply (mk_sources HM) in Hsrc as (J & _). apply in_map_iff in J as ([s2 n2] & E2 & J). cbn [fst] in E2. subst s2. apply module_list_In in J.
    pose proof (proj1 (MN s n2 J)) as M2. apply C36_module_number in M2. rewrite Q1 in M2. injection M2 as ->. exact J. }
  destruct (proj2 (MN s n Hs) Hsrc) as (_ & ks & Hks & Hkk). destruct (SV ks Hks) as (_ & SV3 & SV4).
  assert (HH : exists f, holds (mx_data m) f s t).
  { destruct (Exists_dec (fun f => In s (fa_sources f) /\ In t (fa_tids f)) (dc_files (mx_data m))) as [X|X].
    - intros f. destruct (in_dec string_dec s (fa_sources f)); [|right; tauto]. destruct (in_dec Z.eq_dec t (fa_tids f)); [left|right]; tauto.
    - apply Exists_exists in X as (f & X1 & X2). exists f. split; assumption.
    - exfalso. rewrite SV3 in VAL; [discriminate|exact Hkk|]. intros f (X1 & X2). apply X, Exists_exists. exists f. split; assumption. }
  destruct HH as (f & Hh'). destruct NR as (NI & _ & _ & NH). assert (Hh : holds d f s t) by (apply (NH f s t Hsrc Ht); exact Hh').
  destruct (SV4 k f Hkk Hh') as (drows & D1 & D2).
  destruct (reachable_inv (mk_reach HM)) as [Hb _]. destruct (reachable_inv R) as [Hb0 Ho0].
  assert (KF : str_in s (dc_ctrl (mx_data m)) = false).
  { apply not_true_iff_false. intros X. apply str_in_iff in X. destruct Hb as (_ & Hbc & _). apply Hbc in X as (f1 & A1 & A2 & _).
    destruct Hs as [Hi _]. destruct Hb0 as (_ & _ & Hbi). apply Hbi in Hi as (f2 & B1 & B2 & _). exact (K f1 f2 s (NI f1 A1) B1 A2 B2). }
  rewrite KF in D1. destruct (HG s n Hs) as [MF _]. assert (Hop : opened f) by (rewrite Forall_forall in Ho0; apply Ho0, Hh).
  assert (MF' : module_file f s k) by (apply MF; apply Hh).
  destruct (@train_frames_exist V first pulse f s k t Hop MF' (proj2 (proj2 Hh))) as (pulses & rows & HF).
  destruct (@train_entry V first pulse f s k t pulses rows Hop MF' (proj2 (proj2 Hh)) HF) as (e & _ & _ & PL & RL & _).
  assert (LEN : List.length pulses = List.length rows) by (rewrite PL, RL, !map_length; reflexivity). clear PL RL.
  destruct (HF) as (prows & drows' & ds & F1 & F2 & F3 & F4 & F5). assert (drows' = drows) as -> by (eapply file_rows_fun; eassumption).
  destruct RA as [RA1 RA2]. assert (VM : val = Many drows /\ c = List.length drows).
  { rewrite D2 in VAL. destruct drows as [|v1 [|v2 dr]]; [discriminate| |]; injection VAL as <-.
    - exfalso. destruct (RA1 v1) as (_ & RS & _). rewrite <- Q2, RS in SHAPE. apply (f_equal (@List.length nat)) in SHAPE. cbn [List.length] in SHAPE. lia.
    - split; [reflexivity|]. destruct (RA2 (v1 :: v2 :: dr)) as (_ & RS & _). rewrite <- Q2, RS in SHAPE. congruence. }
  destruct VM as [-> CL]. destruct (RA2 drows) as (_ & _ & RE).
  destruct (nth_error drows q) as [row|] eqn:DR; [|apply nth_error_None in DR; lia].
  assert (LR : List.length rows = List.length drows) by (rewrite F5; apply map_length).
  destruct (nth_error pulses q) as [p|] eqn:PQ; [|apply nth_error_None in PQ; lia].
  assert (DF : det_frame first pulse d m modules k (PulsesByIndex (PvSlice None None None)) n t p (frame_of first ds row)).
  { exists s, f, pulses, rows, q. split; [exact Hs|]. split; [exact Ht|]. split; [exact Hh|]. split; [exact HF|]. split; [exact PQ|]. split.
    - rewrite F5, nth_error_map, DR. reflexivity.
    - cbn. split; [exists (Z.of_nat q); lia|exact I0]. }
  destruct (In_nth_error (dg_modules g) n) as [i Hi]; [apply LM; eauto|].
  destruct (In_nth_error (dg_trains g) t) as [j Hj]; [apply LT; eauto|].
  destruct (In_nth_error (dg_pulses g) p) as [l Hl]; [apply LP; eauto|].
  exists i, j, l, p, (frame_of first ds row), s, f, pulses, rows, ds, row.
  repeat (split; [first [eassumption|reflexivity]|]). split; [exact (proj2 (CELL i j l n t p Hi Hj Hl _) DF)|].
  assert (CC := proj2 (CELL i j l n t p Hi Hj Hl _) DF).
  intros idx IR.
  destruct (@C36_result _ cast (train_arrays conv r) k axis nmod fill st (c :: shape) dt ax HSt HS) as (_ & _ & VALS). destruct HS as (_ & _ & _ & S4 & _).
  pose proof (S4 n _ IM SHAPE) as LTn. pose proof (module_nonneg (proj1 (MN s n Hs))) as N0.
  destruct (VALS (Z.to_nat n) (q :: idx)) as [(a' & A1 & _ & A3)|(A1 & _)]; [lia|constructor; assumption| |].
  - rewrite Z2Nat.id in A1 by lia. rewrite A3, (is_module_fun A1 IM), <- Q2. now apply RE.
  - exfalso. rewrite Z2Nat.id in A1 by lia. exact (A1 _ IM SHAPE).
Qed.
Print Assumptions C97_all_frames.

(** Example: train 12 of the run of two modules, frames of two numbers; cell (module 3, train 12, pulse 8). *)
Definition ag_elem (v : Z) (idx : list nat) : Z := (v + 1000 * Z.of_nat (nth 0 idx 0%nat))%Z.
Definition ag_conv (k : string) (x : tval Z) : nd Z :=
  match x with
  | One v => mk_nd "f4" [2]%nat (ag_elem v)
  | Many rows => mk_nd "f4" [List.length rows; 2]%nat (fun idx => match idx with i :: idx => ag_elem (nth i rows 0%Z) idx | [] => 0%Z end)
  end.
Example ag_reads : reads_as ag_conv "image.data" "f4" [2]%nat ag_elem.
Proof.
  split; [intros v; cbn; auto|]. intros rows. split; [reflexivity|]. split; [reflexivity|]. intros i v idx H. cbn.
  f_equal. revert i H. induction rows as [|x rows IH]; intros [|i] H; try discriminate; cbn in *; [now injection H|auto].
Qed.
Definition ag_train : list (string * src_data Z) := match train_from_id (mx_data det1) 12 with Ok (_, r) => r | Err _ => [] end.
Definition ag_grid : dgrid Z := match det_get_grid idZ idZ det1 "image.data" (PulsesByIndex (PvSlice None None None)) with Ok (PulseGrid g) => g | _ => mk_dgrid [] [] [] [] [] end.
Example C97_example : exists st,
  (detector_of "AGIPD" det_run None None 1 det1 /\ good_modules idZ idZ det_run det1 None "image.data" /\ good_collection (mx_data det1)) /\
  (forall s n, is_module_of det_run (mx_name det1) None s n -> module_number s n /\ (In s (dc_sources (mx_data det1)) -> available (mx_data det1) s "image.data")) /\
  det_get_grid idZ idZ det1 "image.data" (PulsesByIndex (PvSlice None None None)) = Ok (PulseGrid ag_grid) /\
  In 12%Z (mx_train_ids det1) /\ train_from_id (mx_data det1) 12 = Ok (12%Z, ag_train) /\
  stackable (train_arrays ag_conv ag_train) "image.data" (-2) 16 [3; 2]%nat "f4" 1 /\
  stack_detector_data (fun _ x => x) (train_arrays ag_conv ag_train) "image.data" (-2) 16 (-1)%Z = Ok st /\
  (dg_modules ag_grid = [0; 3] /\ dg_trains ag_grid = [10; 11; 12] /\ dg_pulses ag_grid = [0; 4; 8])%Z /\
  cell3 (dg_cells ag_grid) 1 2 2 = Some (Some 322%Z) /\
  nd_at st [2; 3; 1]%nat = 1322%Z /\ nd_at st [2; 3; 0]%nat = 322%Z /\ nd_at st [2; 4; 0]%nat = (-1)%Z.
Proof.
  destruct (ok_run (stack_detector_data (fun _ (x : Z) => x) (train_arrays ag_conv ag_train) "image.data" (-2) 16 (-1)%Z)
    (fun r => (nd_at r [2; 3; 1]%nat, nd_at r [2; 3; 0]%nat, nd_at r [2; 4; 0]%nat)) (b := (1322, 322, -1)%Z)) as (st & H1 & H2); [vm_compute; reflexivity|].
  exists st. split; [split; [exact det1_made|split; [exact det1_good|apply good_collectionb_ok; vm_compute; reflexivity]]|].
  split.
  { intros s n H. apply module_list_In in H.
    assert (E : module_list det_run (mx_name det1) None = [(mod_name "0", 0%Z); (mod_name "3", 3%Z)]) by (vm_compute; reflexivity). rewrite E in H.
    destruct H as [H|[H|[]]]; injection H as <- <-; (split; [apply C36_module_number; reflexivity|]); intros Q; (split; [exact Q|]); eexists; (split; [vm_compute; reflexivity|cbn; auto]). }
  split; [vm_compute; reflexivity|]. split; [vm_compute; auto|]. split; [vm_compute; reflexivity|]. split.
  { destruct (proj1 (C36_accepts (fun _ (x : Z) => x) (train_arrays ag_conv ag_train) "image.data" (-2) 16 (-1)%Z)) as (shape & dt & ax & HS); [exists st; exact H1|].
    assert (shape = [3; 2]%nat /\ dt = "f4") as [-> ->].
    { destruct HS as (_ & S2 & (n & a & S3 & S3') & _). destruct S3 as (b & s & ks & af & E & _ & D & _).
      assert (In a (arrays_of (train_arrays ag_conv ag_train) "image.data")) as I.
      { apply in_flat_map. exists (s, ks). split; [rewrite E; apply in_or_app; right; now left|]. cbn [snd]. rewrite D. now left. }
      destruct (S2 a I) as [<- _]. subst shape. apply (in_map (fun a => (nd_shape a, nd_dtype a))) in I.
      assert (X : map (fun a => (nd_shape a, nd_dtype a)) (arrays_of (train_arrays ag_conv ag_train) "image.data") = [([3; 2]%nat, "f4"); ([3; 2]%nat, "f4")]) by (vm_compute; reflexivity).
      rewrite X in I. destruct I as [I|[I|[]]]; injection I as <- <-; auto. }
    assert (ax = 1%nat) as -> by (destruct HS as (_ & _ & _ & _ & A); unfold stack_axis in A; cbn [List.length] in A; lia). exact HS. }
  split; [exact H1|]. split; [repeat split; vm_compute; reflexivity|]. split; [vm_compute; reflexivity|]. injection H2 as -> -> ->. auto.
Qed.
