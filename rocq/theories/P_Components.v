(** Properties of multi-module detectors (C39-C42, C63). *)
From Verif Require Import Base PyStr M_Files M_Machinery M_Reader M_Glob M_Select M_Series M_Stacking M_Components
  S_Reader S_Coll S_Glob S_Avail S_Series S_Stacking S_Components
  L_Base L_Select L_Components L_Series L_Check L_Check2 Ex_Files P_Series P_Stacking
  L_Components6 L_Components7 L_Components9 L_Components11 L_Components12 L_Check3.
Set Implicit Arguments.
Local Open Scope string_scope.
Local Open Scope list_scope.

(** ** C39: frames and their labels *)
Theorem C39_frames : forall (V : Type) (first : V -> V) (pulse : V -> Z) tag (d : dcoll V) nm modules min m k arg r,
  detector_of tag d nm modules min m -> good_modules first pulse d m modules k ->
  usable_sel arg -> starts_with "image." k = true -> det_get_array first pulse m k arg = Ok r ->
  exists l, r = ByPulse l /\ StronglySorted Z.lt (map fst l) /\
    (forall n, In n (map fst l) <-> exists s, is_module_of d (mx_name m) modules s n) /\
    (forall s n a, is_module_of d (mx_name m) modules s n -> In (n, a) l ->
      (forall t f pulses rows, In t (mx_train_ids m) -> holds d f s t -> train_frames first pulse f s k t pulses rows ->
         chosen_frames arg t pulses rows (frames_at t a)) /\
      (forall t, ~ (In t (mx_train_ids m) /\ exists f, holds d f s t) -> frames_at t a = [])).
Proof. intros V first pulse tag d nm modules min m k arg r HD HG Hu Hk H. exact (det_array_spec HD HG Hu Hk H). Qed.
Print Assumptions C39_frames.
(** Without limits on the pulse IDs: by_id[:] and by_index[:] give all frames of the trains. *)
Theorem C39_everything : forall (V : Type) (first : V -> V) (pulse : V -> Z) tag (d : dcoll V) nm modules min m k arg r,
  detector_of tag d nm modules min m -> (forall s n, is_module_of d (mx_name m) modules s n -> module_files d s k) ->
  starts_with "image." k = true -> arg = PulsesById (PvSlice None None None) \/ arg = PulsesByIndex (PvSlice None None None) ->
  det_get_array first pulse m k arg = Ok r ->
  exists l, r = ByPulse l /\
    forall s n a, is_module_of d (mx_name m) modules s n -> In (n, a) l -> forall t f pulses rows, In t (mx_train_ids m) -> holds d f s t ->
      train_frames first pulse f s k t pulses rows -> frames_at t a = map (fun pv => (t, fst pv, snd pv)) (combine pulses rows).
Proof. intros V first pulse tag d nm modules min m k arg r HD HG Hk Ha H. exact (det_array_all HD HG Hk Ha H). Qed.
Print Assumptions C39_everything.
(** When the reading succeeds. *)
Theorem C39_accepts : forall (V : Type) (first : V -> V) (pulse : V -> Z) tag (d : dcoll V) nm modules min m k arg item,
  detector_of tag d nm modules min m -> good_modules first pulse d m modules k ->
  usable_sel arg -> index_sorted arg -> starts_with "image." k = true -> known_shape item ->
  (forall s n, is_module_of d (mx_name m) modules s n ->
     no_gaps (mx_train_ids m) (mx_data m) s /\ (exists f t, In t (mx_train_ids m) /\ holds d f s t) /\
     (forall f, In f (dc_files d) -> In s (fa_sources f) -> exists ds, dict_get (data_key false s k) (h5_data (fa_file f)) = Some ds /\ frame_shape ds = item) /\
     (forall f t pulses rows, holds d f s t -> train_frames first pulse f s k t pulses rows -> NoDup pulses)) ->
  exists r, det_get_array first pulse m k arg = Ok r.
Proof. intros V first pulse tag d nm modules min m k arg item HD HG Hu Hi Hk Hs H. exact (det_array_accepts HD HG Hu Hi Hk Hs H). Qed.
Print Assumptions C39_accepts.
(** A train of the detector missing between two trains of a file which is used: an exception, no array. *)
Theorem C39_gap_error : forall (V : Type) (first : V -> V) (pulse : V -> Z) tag (d : dcoll V) nm modules min m k arg s n f x y t,
  detector_of tag d nm modules min m -> (forall s n, is_module_of d (mx_name m) modules s n -> module_files d s k) ->
  starts_with "image." k = true -> is_module_of d (mx_name m) modules s n -> In f (dc_files d) -> In s (fa_sources f) ->
  In t (mx_train_ids m) -> (exists t', In t' (mx_train_ids m) /\ In t' (fa_tids f)) ->
  In x (fa_tids f) -> In y (fa_tids f) -> (x <= t <= y)%Z -> ~ In t (fa_tids f) ->
  exists e, det_get_array first pulse m k arg = Err e.
Proof.
  intros V first pulse tag d nm modules min m k arg s n f x y t HD HG Hk Hs Hf Hsf Ht He Hx Hy Hxy Hn.
  eapply (det_array_gap first pulse HD arg HG Hk); [exact Hs|exact Hf|exact Hsf|exact Ht|exact He|exact Hx|exact Hy|exact Hxy|exact Hn].
Qed.
Print Assumptions C39_gap_error.

(** *** Examples *)
Definition rows_of {V} (f : h5file V) (b : bool) (s k : string) (t : Z) : option (list V) :=
  match h5_trainid f with
  | None => None
  | Some raw =>
      match pos_of t raw, dict_get (index_key b s k) (h5_index f), dict_get (data_key b s k) (h5_data f) with
      | Some p, Some g, Some ds =>
          match nth_error (ix_first g) p, entry_count g p with
          | Some a, Some c => Some (firstn (Z.to_nat c) (skipn (Z.to_nat a) (ds_rows ds)))
          | _, _ => None end
      | _, _, _ => None
      end
  end.
Lemma rows_of_spec : forall V (f : h5file V) b s k t rows, rows_of f b s k t = Some rows -> file_rows f b s k t rows.
Proof.
  intros V f b s k t rows H. unfold rows_of in H. destruct (h5_trainid f) as [raw|] eqn:E1; [|discriminate].
  destruct (pos_of t raw) as [p|] eqn:E2; [|discriminate]. destruct (dict_get (index_key b s k) _) as [g|] eqn:E3; [|discriminate].
  destruct (dict_get (data_key b s k) _) as [ds|] eqn:E4; [|discriminate]. destruct (nth_error _ p) as [a|] eqn:E5; [|discriminate].
  destruct (entry_count g p) as [c|] eqn:E6; [|discriminate]. injection H as <-. apply pos_of_spec in E2 as [E2 E2'].
  exists raw, p, g, a, c, ds. repeat split; assumption.
Qed.
Definition idZ (x : Z) : Z := x.
Definition frames_of (f : faccess Z) (s k : string) (t : Z) : option (list Z * list Z) :=
  match rows_of (fa_file f) false s (pulse_key k) t, rows_of (fa_file f) false s k t, dict_get (data_key false s k) (h5_data (fa_file f)) with
  | Some a, Some b, Some ds => Some (map idZ a, map (frame_of idZ ds) b) | _, _, _ => None end.
Lemma frames_of_spec : forall f s k t pulses rows, frames_of f s k t = Some (pulses, rows) -> train_frames idZ idZ f s k t pulses rows.
Proof.
  intros f s k t pulses rows H. unfold frames_of in H. destruct (rows_of _ _ _ (pulse_key k) _) as [a|] eqn:E1; [|discriminate].
  destruct (rows_of _ _ _ k _) as [b|] eqn:E2; [|discriminate]. destruct (dict_get _ _) as [ds|] eqn:E3; [|discriminate]. injection H as <- <-.
  exists a, b, ds. apply rows_of_spec in E1, E2. auto.
Qed.

(** One module: file name, number, train IDs, index, pulse IDs; the data is 1000 * train + row. *)
Definition mod_name (n : string) : string := ("SPB_DET_AGIPD1M-1/DET/" ++ n ++ "CH0:xtdf")%string.
Definition mod_file (fn n : string) (tids firsts counts pulses data : list Z) : h5file Z :=
  mk_h5 fn (Some tids) (Some "1.0") None (Some [("INSTRUMENT/" ++ mod_name n ++ "/image")%string])
    [((mod_name n ++ "/image")%string, mk_ix firsts (IxCount counts))]
    [(("INSTRUMENT/" ++ mod_name n ++ "/image/data")%string, dsZ data); (("INSTRUMENT/" ++ mod_name n ++ "/image/pulseId")%string, dsZ pulses)].
Definition det_files : list (h5file Z) :=
  [mod_file "AGIPD00" "0" [10; 11; 12]%Z [0; 3; 6]%Z [3; 3; 3]%Z [0; 4; 8; 0; 4; 8; 0; 4; 8]%Z [100; 101; 102; 110; 111; 112; 120; 121; 122]%Z;
   mod_file "AGIPD03a" "3" [10; 11]%Z [0; 3]%Z [3; 0]%Z [0; 4; 8]%Z [300; 301; 302]%Z;
   mod_file "AGIPD03b" "3" [12]%Z [0]%Z [3]%Z [0; 4; 8]%Z [320; 321; 322]%Z].
Definition det_run : dcoll Z := force no_coll (open_files det_files).
Definition no_mpx : mpx Z := mk_mpx "" no_coll [] 0.
Definition det1 : mpx Z := force no_mpx (mpx_open "AGIPD" det_run None None 1).
Lemma det_run_reachable : reachable det_run.
Proof. apply (open_files_reachable det_files). vm_compute. reflexivity. Qed.
Example det1_made : detector_of "AGIPD" det_run None None 1 det1.
Proof.
  split; [exact det_run_reachable|]. split; [apply distinct_kindsb_ok; vm_compute; reflexivity|]. split; [apply good_filesb_ok; vm_compute; reflexivity|].
  split; [apply countableb_ok; vm_compute; reflexivity|]. vm_compute. reflexivity.
Qed.
Example det1_good : good_modules idZ idZ det_run det1 None "image.data".
Proof. apply good_modulesb_ok; [exact det_run_reachable|]. vm_compute. reflexivity. Qed.
(** Train 11 of module 3 has no frames; pulses 4 and 8 are asked for. *)
Example C39_example : det_get_array idZ idZ det1 "image.data" (PulsesById (PvList [8; 4]%Z)) =
  Ok (ByPulse [(0, mk_arr [] [(10, 4, 101); (10, 8, 102); (11, 4, 111); (11, 8, 112); (12, 4, 121); (12, 8, 122)]);
               (3, mk_arr [] [(10, 4, 301); (10, 8, 302); (12, 4, 321); (12, 8, 322)])])%Z /\ mx_train_ids det1 = [10; 11; 12]%Z.
Proof. split; vm_compute; reflexivity. Qed.
Example C39_example_hyp : usable_sel (PulsesById (PvList [8; 4]%Z)) /\ index_sorted (PulsesById (PvList [8; 4]%Z)).
Proof. split; [|exact I]. repeat constructor; vm_compute; congruence. Qed.
Example C39_example_frames : exists f, In f (dc_files det_run) /\ train_frames idZ idZ f (mod_name "3") "image.data" 12 [0; 4; 8]%Z [320; 321; 322]%Z.
Proof. eexists. split; [right; right; left; reflexivity|]. apply frames_of_spec. vm_compute. reflexivity. Qed.
(** Module 3 has trains 10 and 12 in one file, without train 11. *)
Definition gap_run : dcoll Z := force no_coll (open_files
  [mod_file "AGIPD00" "0" [10; 11; 12]%Z [0; 3; 6]%Z [3; 3; 3]%Z [0; 4; 8; 0; 4; 8; 0; 4; 8]%Z [100; 101; 102; 110; 111; 112; 120; 121; 122]%Z;
   mod_file "AGIPD03" "3" [10; 12]%Z [0; 3]%Z [3; 3]%Z [0; 4; 8; 0; 4; 8]%Z [300; 301; 302; 320; 321; 322]%Z]).
Definition gap_det : mpx Z := force no_mpx (mpx_open "AGIPD" gap_run None None 1).
Example C39_gap_example : mx_train_ids gap_det = [10; 11; 12]%Z /\ exists e, det_get_array idZ idZ gap_det "image.data" (PulsesById (PvInt 0)) = Err e.
Proof. split; [vm_compute; reflexivity|]. eexists. vm_compute. reflexivity. Qed.
(** The train 11 was recorded without frames, and its index entry is (0, 0), not (3, 0).  When the trains from 11 on are
    selected, frames of train 10 are returned for train 12. *)
Definition zero_files : list (h5file Z) :=
  [mod_file "AGIPD00" "0" [10; 11; 12]%Z [0; 3; 6]%Z [3; 3; 3]%Z [0; 4; 8; 0; 4; 8; 0; 4; 8]%Z [100; 101; 102; 110; 111; 112; 120; 121; 122]%Z;
   mod_file "AGIPD03" "3" [10; 11; 12]%Z [0; 0; 3]%Z [3; 0; 3]%Z [0; 4; 8; 0; 4; 8]%Z [300; 301; 302; 320; 321; 322]%Z].
Definition zero_all : dcoll Z := force no_coll (open_files zero_files).
Definition zero_run : dcoll Z := force no_coll (select_trains zero_all (ByIdList [11; 12]%Z)).
Definition zero_det : mpx Z := force no_mpx (mpx_open "AGIPD" zero_run None None 1).
Lemma zero_run_reachable : reachable zero_run.
Proof.
  apply reach_trains with (d := zero_all) (tr := ByIdList [11; 12]%Z); [|vm_compute; reflexivity].
  apply (open_files_reachable zero_files). vm_compute. reflexivity.
Qed.
Theorem C39_misattribution_refuted : exists (d : dcoll Z) m f l a p v pulses10 rows10 pulses12 rows12,
  detector_of "AGIPD" d None None 1 m /\ det_get_array idZ idZ m "image.data" (PulsesByIndex (PvSlice None None None)) = Ok (ByPulse l) /\
  is_module_of d (mx_name m) None (mod_name "3") 3 /\ In (3%Z, a) l /\ In (12%Z, p, v) (frames_at 12 a) /\
  holds d f (mod_name "3") 12 /\ holds d f (mod_name "3") 10 /\
  train_frames idZ idZ f (mod_name "3") "image.data" 12 pulses12 rows12 /\ ~ In v rows12 /\
  train_frames idZ idZ f (mod_name "3") "image.data" 10 pulses10 rows10 /\ In v rows10.
Proof.
  exists zero_run, zero_det, (nth 1 (dc_files zero_run) (mk_fa (hd file1 zero_files) [] [] [])),
    [(0, mk_arr [] [(11, 0, 110); (11, 4, 111); (11, 8, 112); (12, 0, 120); (12, 4, 121); (12, 8, 122)]); (3, mk_arr [] [(12, 0, 300); (12, 4, 301); (12, 8, 302)])]%Z,
    (mk_arr [] [(12, 0, 300); (12, 4, 301); (12, 8, 302)]%Z), 4%Z, 301%Z, [0; 4; 8]%Z, [300; 301; 302]%Z, [0; 4; 8]%Z, [320; 321; 322]%Z.
  split.
  { split; [exact zero_run_reachable|]. split; [apply distinct_kindsb_ok; vm_compute; reflexivity|]. split; [apply good_filesb_ok; vm_compute; reflexivity|].
    split; [apply countableb_ok; vm_compute; reflexivity|]. vm_compute. reflexivity. }
  split; [vm_compute; reflexivity|]. split; [apply module_list_In; vm_compute; auto|]. split; [right; left; reflexivity|]. split; [vm_compute; auto|].
  split; [split; [vm_compute; auto|split; vm_compute; auto]|]. split; [split; [vm_compute; auto|split; vm_compute; auto]|].
  split; [apply frames_of_spec; vm_compute; reflexivity|]. split; [simpl; intuition discriminate|].
  split; [apply frames_of_spec; vm_compute; reflexivity|]. simpl. auto.
Qed.
Print Assumptions C39_misattribution_refuted.

(** ** C40: pulse selections *)
(** The selections accepted; others are refused.  (Numbers outside the unsigned 64 bit range are accepted: see below.) *)
Theorem C40_selections : forall a,
  (usable_sel a -> exists ps, check_pulse_selection a = Ok ps) /\
  (forall ps, check_pulse_selection a = Ok ps -> match a with
     | PulsesById (PvInt _) | PulsesByIndex (PvInt _) | PulsesById (PvList _) | PulsesByIndex (PvList _) => True
     | _ => usable_sel a end).
Proof. exact check_sel_outcomes. Qed.
Print Assumptions C40_selections.
(** The frames of one train returned by get_array: those at the positions with the numbers asked for, in the order of the file. *)
Theorem C40_frames : forall (V : Type) (first : V -> V) (pulse : V -> Z) tag (d : dcoll V) nm modules min m k arg l s n a t f pulses rows,
  detector_of tag d nm modules min m -> good_modules first pulse d m modules k ->
  usable_sel arg -> starts_with "image." k = true -> det_get_array first pulse m k arg = Ok (ByPulse l) ->
  is_module_of d (mx_name m) modules s n -> In (n, a) l -> In t (mx_train_ids m) -> holds d f s t -> train_frames first pulse f s k t pulses rows ->
  forall p v, In (t, p, v) (ar_frames a) <-> exists i, nth_error pulses i = Some p /\ nth_error rows i = Some v /\ chosen arg i p.
Proof.
  intros V first pulse tag d nm modules min m k arg l s n a t f pulses rows HD HG Hu Hk H Hs Ha Ht Hh Htr p v.
  destruct (det_array_spec HD HG Hu Hk H) as (l' & El & _ & _ & X). injection El as <-. destruct (X s n a Hs Ha) as [X1 _].
  destruct (X1 t f pulses rows Ht Hh Htr) as (ix & _ & I & F).
  assert (E : In (t, p, v) (ar_frames a) <-> In (t, p, v) (frames_at t a)).
  { unfold frames_at. rewrite filter_In. cbn [fst]. rewrite Z.eqb_refl. tauto. }
  rewrite E. clear E. split.
  - intros Hin. assert (Y : exists i, In i ix /\ exists p' v', nth_error pulses i = Some p' /\ nth_error rows i = Some v' /\ (t, p, v) = (t, p', v')).
    { clear -F Hin. induction F as [|i fr ix frs H F IH]; [destruct Hin|]. destruct Hin as [->|Hin]; [exists i; split; [now left|exact H]|].
      destruct (IH Hin) as (j & J1 & J2). exists j. split; [now right|exact J2]. }
    destruct Y as (i & Hi & p' & v' & Hp & Hv & E). injection E as <- <-. exists i. split; [assumption|]. split; [assumption|].
    apply I in Hi as (p' & Hp' & Hc). congruence.
  - intros (i & Hp & Hv & Hc). assert (Hi : In i ix) by (apply I; eauto). clear -F Hi Hp Hv.
    induction F as [|j fr ix frs H F IH]; [destruct Hi|]. destruct Hi as [->|Hi]; [|right; auto]. left.
    destruct H as (p' & v' & Hp' & Hv' & ->). congruence.
Qed.
Print Assumptions C40_frames.
(** A list of pulse indexes which is not increasing, as far as it is inside some train, is refused. *)
Theorem C40_index_order : forall (V : Type) (first : V -> V) (pulse : V -> Z) tag (d : dcoll V) nm modules min m k l s n f t pulses rows,
  detector_of tag d nm modules min m -> good_modules first pulse d m modules k -> Forall u64_range l -> starts_with "image." k = true ->
  is_module_of d (mx_name m) modules s n -> In t (mx_train_ids m) -> holds d f s t -> train_frames first pulse f s k t pulses rows ->
  ~ StronglySorted Z.lt (filter (fun i => i <? Z.of_nat (List.length pulses))%Z l) ->
  exists e, det_get_array first pulse m k (PulsesByIndex (PvList l)) = Err e.
Proof.
  intros V first pulse tag d nm modules min m k l s n f t pulses rows HD HG Hl Hk Hs Ht Hh Htr Hn.
  destruct (det_get_array first pulse m k (PulsesByIndex (PvList l))) as [r|e] eqn:E; [|eauto]. exfalso. apply Hn.
  exact (det_array_order HD HG Hl Hk E Hs Ht Hh Htr).
Qed.
Print Assumptions C40_index_order.
Example C40_unordered_example : exists e, det_get_array idZ idZ det1 "image.data" (PulsesByIndex (PvList [2; 0]%Z)) = Err e.
Proof. eexists. vm_compute. reflexivity. Qed.
(** Negative numbers are not refused: they stand for huge unsigned numbers, which select nothing. *)
Theorem C40_negative_refuted : exists (d : dcoll Z) m l, detector_of "AGIPD" d None None 1 m /\
  det_get_array idZ idZ m "image.data" (PulsesByIndex (PvInt (-1))) = Ok (ByPulse l) /\
  map (fun p => ar_frames (snd p)) l = [[]; []].
Proof.
  exists det_run, det1, [(0, mk_arr [] []); (3, mk_arr [] [])]%Z. split; [exact det1_made|]. split; vm_compute; reflexivity.
Qed.
Print Assumptions C40_negative_refuted.
(** Pulse IDs from 2700 on: by_id[0:2700] returns a frame with ID 3000. *)
Definition big_files : list (h5file Z) := [mod_file "AGIPD00" "0" [10]%Z [0]%Z [3]%Z [0; 4; 3000]%Z [100; 101; 102]%Z].
Definition big_run : dcoll Z := force no_coll (open_files big_files).
Definition big_det : mpx Z := force no_mpx (mpx_open "AGIPD" big_run None None 1).
Lemma big_made : detector_of "AGIPD" big_run None None 1 big_det.
Proof.
  split; [apply (open_files_reachable big_files); vm_compute; reflexivity|]. split; [apply distinct_kindsb_ok; vm_compute; reflexivity|]. split; [apply good_filesb_ok; vm_compute; reflexivity|].
  split; [apply countableb_ok; vm_compute; reflexivity|]. vm_compute. reflexivity.
Qed.
Theorem C40_limit_refuted : exists (d : dcoll Z) m l a, detector_of "AGIPD" d None None 1 m /\
  det_get_array idZ idZ m "image.data" (PulsesById (PvSlice (Some 0) (Some 2700) None)%Z) = Ok (ByPulse l) /\
  In (0%Z, a) l /\ In (10, 3000, 102)%Z (ar_frames a) /\ ~ asked (PvSlice (Some 0) (Some 2700) None)%Z 3000.
Proof.
  exists big_run, big_det, [(0, mk_arr [] [(10, 0, 100); (10, 4, 101); (10, 3000, 102)])]%Z, (mk_arr [] [(10, 0, 100); (10, 4, 101); (10, 3000, 102)]%Z).
  split; [exact big_made|]. split; [vm_compute; reflexivity|]. split; [now left|]. split; [simpl; auto|]. intros [_ H]. lia.
Qed.
Print Assumptions C40_limit_refuted.
Example C40_example : det_get_array idZ idZ det1 "image.data" (PulsesByIndex (PvSlice (Some 1) None (Some 1))%Z) =
  Ok (ByPulse [(0, mk_arr [] [(10, 4, 101); (10, 8, 102); (11, 4, 111); (11, 8, 112); (12, 4, 121); (12, 8, 122)]);
               (3, mk_arr [] [(10, 4, 301); (10, 8, 302); (12, 4, 321); (12, 8, 322)])])%Z /\
  usable_sel (PulsesByIndex (PvSlice (Some 1) None (Some 1))%Z).
Proof. split; [vm_compute; reflexivity|]. simpl. lia. Qed.

(** ** C41: iterating selects the same frames *)
Theorem C41_frames : forall (V : Type) (first : V -> V) (pulse : V -> Z) h5_empty tag (d : dcoll V) nm modules min m arg items t g k,
  detector_of tag d nm modules min m -> good_modules first pulse d m modules k -> usable_sel arg -> starts_with "image." k = true ->
  det_trains first pulse h5_empty m arg = Ok items -> In (Ok (t, g)) items ->
  forall s n f pulses rows, is_module_of d (mx_name m) modules s n -> holds d f s t -> train_frames first pulse f s k t pulses rows ->
    (id_step_one arg -> StronglySorted Z.le pulses) ->
    (available (mx_data m) s k -> exists v, yielded g k n v) /\
    (forall v, yielded g k n v -> exists a, v = DPulses a /\ chosen_frames arg t pulses rows (ar_frames a)).
Proof.
  intros V first pulse h5_empty tag d nm modules min m arg items t g k HD HG Hu Hk Hi Hin s n f pulses rows Hs Hh Htr Hsort.
  exact (det_iter_frames HD HG Hu Hk Hi Hin Hs Hh Htr Hsort).
Qed.
Print Assumptions C41_frames.
Theorem C41_same_as_array : forall (V : Type) (first : V -> V) (pulse : V -> Z) h5_empty tag (d : dcoll V) nm modules min m arg items t g k r,
  detector_of tag d nm modules min m -> good_modules first pulse d m modules k -> usable_sel arg -> starts_with "image." k = true ->
  det_trains first pulse h5_empty m arg = Ok items -> In (Ok (t, g)) items -> det_get_array first pulse m k arg = Ok r ->
  (id_step_one arg -> forall s n f pulses rows, is_module_of d (mx_name m) modules s n -> holds d f s t -> train_frames first pulse f s k t pulses rows -> StronglySorted Z.le pulses) ->
  exists l, r = ByPulse l /\ forall n a v, In (n, a) l -> yielded g k n v -> exists b, v = DPulses b /\ ar_frames b = frames_at t a.
Proof.
  intros V first pulse h5_empty tag d nm modules min m arg items t g k r HD HG Hu Hk Hi Hin Hr Hsort.
  exact (iter_is_batch HD HG Hu Hk Hi Hin Hr Hsort).
Qed.
Print Assumptions C41_same_as_array.
Definition show_items (x : res (list (res (Z * list (string * list (Z * det_val Z)))))) (k : string) : list (option (Z * list (Z * list (Z * Z * Z)))) :=
  match x with
  | Ok l => map (fun y => match y with Ok (t, g) => Some (t, match dict_get k g with Some l => map (fun p => (fst p, match snd p with DPulses a => ar_frames a | _ => [] end)) l | None => [] end) | Err _ => None end) l
  | Err _ => [] end.
Example C41_example : show_items (det_trains idZ idZ true det1 (PulsesById (PvSlice (Some 3) (Some 9) None)%Z)) "image.data" =
  [Some (10, [(0, [(10, 4, 101); (10, 8, 102)]); (3, [(10, 4, 301); (10, 8, 302)])]); Some (12, [(0, [(12, 4, 121); (12, 8, 122)]); (3, [(12, 4, 321); (12, 8, 322)])])]%Z.
Proof. vm_compute. reflexivity. Qed.
(** Pulse IDs not sorted within a train: iteration misses frames. *)
Definition unsorted_files : list (h5file Z) := [mod_file "AGIPD00" "0" [10]%Z [0]%Z [3]%Z [8; 0; 4]%Z [100; 101; 102]%Z].
Definition unsorted_run : dcoll Z := force no_coll (open_files unsorted_files).
Definition unsorted_det : mpx Z := force no_mpx (mpx_open "AGIPD" unsorted_run None None 1).
Theorem C41_unsorted_refuted : exists (d : dcoll Z) m arg l a, detector_of "AGIPD" d None None 1 m /\ good_modules idZ idZ d m None "image.data" /\ usable_sel arg /\
  show_items (det_trains idZ idZ true m arg) "image.data" = [Some (10, [(0, [])])]%Z /\
  det_get_array idZ idZ m "image.data" arg = Ok (ByPulse l) /\ In (0%Z, a) l /\ ar_frames a <> [].
Proof.
  exists unsorted_run, unsorted_det, (PulsesById (PvSlice (Some 0) (Some 5) None)%Z), [(0, mk_arr [] [(10, 0, 101); (10, 4, 102)])]%Z, (mk_arr [] [(10, 0, 101); (10, 4, 102)]%Z).
  assert (R : reachable unsorted_run) by (apply (open_files_reachable unsorted_files); vm_compute; reflexivity).
  split.
  { split; [exact R|]. split; [apply distinct_kindsb_ok; vm_compute; reflexivity|]. split; [apply good_filesb_ok; vm_compute; reflexivity|].
    split; [apply countableb_ok; vm_compute; reflexivity|]. vm_compute. reflexivity. }
  split; [apply good_modulesb_ok; [exact R|]; vm_compute; reflexivity|]. split; [simpl; lia|]. split; [vm_compute; reflexivity|]. split; [vm_compute; reflexivity|].
  split; [now left|discriminate].
Qed.
Print Assumptions C41_unsorted_refuted.
(** A selection with none of the pulses of a train: with an h5py which refuses empty lists, iteration raises an exception
    where get_array returns an array without frames. *)
Theorem C41_empty_refuted : exists (d : dcoll Z) m arg l, detector_of "AGIPD" d None None 1 m /\ usable_sel arg /\
  show_items (det_trains idZ idZ false m arg) "image.data" = [None] /\
  det_get_array idZ idZ m "image.data" arg = Ok (ByPulse l) /\ l <> [].
Proof.
  exists big_run, big_det, (PulsesById (PvInt 1)), [(0, mk_arr [] [])]%Z. split; [exact big_made|]. split; [split; vm_compute; congruence|].
  split; [vm_compute; reflexivity|]. split; [vm_compute; reflexivity|discriminate].
Qed.
Print Assumptions C41_empty_refuted.

(** ** C42: making the detector *)
(** All outcomes, for a given detector name. *)
Theorem C42_open : forall (V : Type) tag (d : dcoll V) name modules min,
  reachable d -> distinct_kinds d -> good_files d -> countable d name modules ->
  let one_each := forall s s' n, is_module_of d name modules s n -> is_module_of d name modules s' n -> s = s' in
  ((forall s n, ~ is_module_of d name modules s n) -> mpx_open tag d (Some name) modules min = Err ESourceNameError) /\
  ((exists s n, is_module_of d name modules s n) -> (forall c, ~ frames_uniform d name modules c) -> mpx_open tag d (Some name) modules min = Err EValueError) /\
  ((exists s n, is_module_of d name modules s n) -> (forall t, ~ detector_train d name modules min t) -> mpx_open tag d (Some name) modules min = Err EValueError) /\
  (forall c t, frames_uniform d name modules c -> detector_train d name modules min t -> ~ one_each -> mpx_open tag d (Some name) modules min = Err EAssertionError) /\
  (forall c t, frames_uniform d name modules c -> detector_train d name modules min t -> one_each ->
     exists m, mpx_open tag d (Some name) modules min = Ok m /\ mx_name m = name /\ mx_fpt m = c /\
       (forall s n, In (s, n) (mx_modules m) <-> is_module_of d name modules s n) /\
       StronglySorted Z.lt (mx_train_ids m) /\ forall t, In t (mx_train_ids m) <-> detector_train d name modules min t).
Proof.
  intros V tag d name modules min R K G C one_each.
  destruct (open_spec R K G C tag min) as (S1 & S2 & S3 & S4 & S5).
  assert (E : (exists s n, is_module_of d name modules s n) -> module_list d name modules <> []).
  { intros (s & n & H) E. apply module_list_In in H. rewrite E in H. exact H. }
  assert (N : one_each <-> NoDup (map snd (module_list d name modules))).
  { split.
    - intros H. assert (Nf := module_list_nodup name modules R).
      assert (X : forall l, NoDup (map fst l) -> (forall x, In x l -> In x (module_list d name modules)) -> NoDup (map snd l)).
      { induction l as [|[s n] l IH]; intros Hl Hi; simpl; constructor.
        - intros Hin. apply in_map_iff in Hin as ([s' n'] & E' & Hin). simpl in E'. subst n'. apply NoDup_cons_iff in Hl as [Hl _]. apply Hl.
          rewrite (H s s' n); [apply (in_map fst) in Hin; exact Hin| |]; apply module_list_In, Hi; [now left|now right].
        - inversion Hl; subst. apply IH; [assumption|]. intros x Hx. apply Hi. now right. }
      apply X; auto.
    - intros Hn s s' n H H'. apply module_list_In in H, H'. assert (X := NoDup_map_inj Hn H H' eq_refl). congruence. }
  split; [|split; [|split; [|split]]].
  - intros H. apply S1. destruct (module_list d name modules) as [|[s n] l] eqn:El; [reflexivity|]. exfalso. apply (H s n). apply module_list_In. rewrite El. now left.
  - intros Hm Hc. apply S2; auto.
  - intros Hm Hc. apply S3; auto.
  - intros c t Hc Ht Hn. eapply S4; try eassumption. now rewrite <- N.
  - intros c t Hc Ht Hn. destruct (S5 c t Hc Ht (proj1 N Hn)) as (m & M1 & M2 & M3 & M4 & M5 & M6 & _). exists m. split; [assumption|]. split; [assumption|]. split; [assumption|].
    split; [intros s n; rewrite M3; apply module_list_In|]. split; assumption.
Qed.
Print Assumptions C42_open.
(** The name found when none is given. *)
Theorem C42_name : forall (V : Type) tag (d : dcoll V) modules min,
  let has p := exists s, In s (dc_inst d) /\ det_name tag s p in
  (forall p, has p -> (forall q, has q -> q = p) -> mpx_open tag d None modules min = mpx_open tag d (Some p) modules min) /\
  ((forall p, ~ has p) -> mpx_open tag d None modules min = Err ESourceNameError) /\
  ((exists p q, has p /\ has q /\ p <> q) -> mpx_open tag d None modules min = Err EValueError).
Proof.
  intros V tag d modules min has. pose proof (find_name_spec tag d) as F. cbv zeta in F. fold has in F. unfold mpx_open.
  destruct (find_detector_name tag d) as [p|e]; cbn [bind].
  - destruct F as [F1 F2]. split; [|split].
    + intros p' H1 H2. rewrite (F2 p' H1). reflexivity.
    + intros H. exfalso. exact (H p F1).
    + intros (a & b & Ha & Hb & Hn). exfalso. apply Hn. now rewrite (F2 a Ha), (F2 b Hb).
  - split; [|split].
    + intros p H1 H2. exfalso. destruct F as [(-> & F)|(-> & a & b & Ha & Hb & Hn)]; [exact (F p H1)|]. apply Hn. now rewrite (H2 a Ha), (H2 b Hb).
    + intros H. destruct F as [(-> & _)|(-> & a & _ & Ha & _)]; [reflexivity|]. exfalso. exact (H a Ha).
    + intros (a & b & Ha & _). destruct F as [(-> & F)|(-> & _)]; [|reflexivity]. exfalso. exact (F a Ha).
Qed.
Print Assumptions C42_name.
Example C42_example : (exists m, mpx_open "AGIPD" det_run None None 2 = Ok m /\ mx_train_ids m = [10; 12]%Z /\ mx_fpt m = 3%Z /\ mx_name m = "SPB_DET_AGIPD1M-1") /\
  mpx_open "AGIPD" det_run None None 3 = Err EValueError /\ mpx_open "LPD" det_run None None 1 = Err ESourceNameError /\
  countable det_run "SPB_DET_AGIPD1M-1" None.
Proof.
  split; [|split; [vm_compute; reflexivity|split; [vm_compute; reflexivity|apply countableb_ok; vm_compute; reflexivity]]].
  destruct (ok_run (mpx_open "AGIPD" det_run None None 2) (fun m => (mx_train_ids m, mx_fpt m, mx_name m)) (b := ([10; 12]%Z, 3%Z, "SPB_DET_AGIPD1M-1"))) as (m & H1 & H2); [vm_compute; reflexivity|].
  exists m. split; [exact H1|]. injection H2 as -> -> ->. auto.
Qed.

(** ** C63: trains() yields the trains for which all modules have data *)
Theorem C63_complete_trains : forall (V : Type) (first : V -> V) (pulse : V -> Z) h5_empty tag (d : dcoll V) nm modules min m arg items,
  detector_of tag d nm modules min m -> good_collection (mx_data m) -> det_trains first pulse h5_empty m arg = Ok items ->
  (forall t g, In (Ok (t, g)) items -> In t (mx_train_ids m) /\ complete (mx_data m) t) /\
  ((forall e, ~ In (Err e) items) -> forall t, In t (mx_train_ids m) -> complete (mx_data m) t -> exists g, In (Ok (t, g)) items) /\
  StronglySorted Z.lt (flat_map (fun x => match x with Ok p => [fst p] | Err _ => [] end) items).
Proof.
  intros V first pulse h5_empty tag d nm modules min m arg items HD GC H.
  destruct (det_iter_complete HD GC H) as (P1 & P2 & done & (r & Er & _) & E). split; [|split; [exact P2|]].
  - intros t g Hin. split; [|exact (P1 t g Hin)]. destruct (det_iter_spec HD H) as (ps & _ & ->). apply mloop_In in Hin. apply Hin.
  - rewrite E. apply SS_filter_gen. pose proof (mk_sorted (detector_made HD)) as S. rewrite Er in S. clear -S.
    induction done as [|x l IH]; [constructor|]. simpl in S. inversion S; subst. constructor; [auto|]. apply Forall_app in H2. apply H2.
Qed.
Print Assumptions C63_complete_trains.
(** So min_modules has no effect on it: with min_modules=1 the array has train 11, trains() has not. *)
Theorem C63_min_modules_refuted : exists (d : dcoll Z) m, detector_of "AGIPD" d None None 1 m /\ good_collection (mx_data m) /\
  mx_train_ids m = [10; 11; 12]%Z /\
  map (option_map fst) (show_items (det_trains idZ idZ true m (PulsesById (PvSlice None None None))) "image.data") = [Some 10; Some 12]%Z.
Proof.
  exists det_run, det1. split; [exact det1_made|]. split; [apply good_collectionb_ok; vm_compute; reflexivity|]. split; vm_compute; reflexivity.
Qed.
Print Assumptions C63_min_modules_refuted.
(** A module with the same train twice in a file cannot be compared with the others; pulse IDs for only some of the frames
    cannot label them. *)
Definition twice_files : list (h5file Z) := [mod_file "AGIPD00" "0" [10; 11; 11]%Z [0; 3; 6]%Z [3; 3; 3]%Z [0; 4; 8; 0; 4; 8; 0; 4; 8]%Z [100; 101; 102; 110; 111; 112; 120; 121; 122]%Z].
Definition twice_run : dcoll Z := force no_coll (open_files twice_files).
Example C42_example_repeated : reachable twice_run /\ mpx_open "AGIPD" twice_run None None 1 = Err EValueError.
Proof. split; [apply (open_files_reachable twice_files); vm_compute; reflexivity|vm_compute; reflexivity]. Qed.
Definition short_run : dcoll Z := force no_coll (open_files [mod_file "AGIPD00" "0" [10; 11]%Z [0; 3]%Z [3; 3]%Z [0; 4; 8; 0]%Z [100; 101; 102; 110; 111; 112]%Z]).
Example C39_example_short : exists m, mpx_open "AGIPD" short_run None None 1 = Ok m /\ det_get_array idZ idZ m "image.data" (PulsesByIndex (PvSlice None None None)) = Err EValueError.
Proof.
  destruct (ok_run (mpx_open "AGIPD" short_run None None 1) (fun m => det_get_array idZ idZ m "image.data" (PulsesByIndex (PvSlice None None None))) (b := Err EValueError)) as (m & H1 & H2); [vm_compute; reflexivity|].
  exists m. auto.
Qed.
