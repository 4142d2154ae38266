(** Lemmas on the CXI writer: the file as a whole. *)
From Verif Require Import Base PyStr M_Files M_Machinery M_Reader M_Glob M_Select M_Series M_Stacking M_Components M_Cxi
  S_Reader S_Coll S_Glob S_Select S_Avail S_Series S_Stacking S_Components S_Cxi
  L_Base L_Machinery L_Reader L_GetArray L_Select L_Trains L_SelTrains L_Array2 L_Glob L_Sel2 L_Sel3 L_Hist L_Series L_Stacking L_Stacking2 L_Writer5
  L_Components L_Components2 L_Components3 L_Components4 L_Components5 L_Components6 L_Components7 L_Components8 L_Components11 L_Components12 L_Cxi L_Cxi2 L_Cxi3 L_Cxi4 L_Cxi5 L_Cxi6.
Set Implicit Arguments. Unset Strict Implicit.
Local Open Scope string_scope.
Local Open Scope list_scope.

(** ** Decimal numerals *)
Lemma digit_char_val : forall z, (0 <= z < 10)%Z -> digit_val (digit_char z) = z /\ is_digit (digit_char z) = true.
Proof.
  intros z H. assert (Hc : (z = 0 \/ z = 1 \/ z = 2 \/ z = 3 \/ z = 4 \/ z = 5 \/ z = 6 \/ z = 7 \/ z = 8 \/ z = 9)%Z) by lia.
  repeat (destruct Hc as [->|Hc]; [split; reflexivity|]). subst. split; reflexivity.
Qed.
Lemma digits_of_spec : forall fuel z acc, (0 <= z < 2 ^ Z.of_nat fuel)%Z -> (0 < fuel)%nat -> all_digits acc ->
  all_digits (digits_of fuel z acc) /\ digits_of fuel z acc <> "" /\
  decimal (digits_of fuel z acc) = (z * 10 ^ Z.of_nat (String.length acc) + decimal acc)%Z.
Proof.
  induction fuel as [|fuel IH]; intros z acc Hz Hf Ha; [lia|]. cbn [digits_of]. destruct (Z.ltb_spec z 10).
  - destruct (digit_char_val (z := z)) as [D1 D2]; [lia|]. split; [cbn; auto|]. split; [discriminate|]. cbn [decimal]. now rewrite D1.
  - assert (Hm := Z.mod_pos_bound z 10 ltac:(lia)). destruct (digit_char_val (z := (z mod 10)%Z)) as [D1 D2]; [lia|].
    assert (Hf2 : (0 < fuel)%nat). { destruct fuel; [cbn in Hz; lia|lia]. }
    destruct (IH (z / 10)%Z (String (digit_char (z mod 10)) acc)) as (I1 & I2 & I3).
    + split; [apply Z.div_pos; lia|]. rewrite Nat2Z.inj_succ, Z.pow_succ_r in Hz by lia. apply Z.div_lt_upper_bound; lia.
    + assumption.
    + cbn. auto.
    + split; [assumption|]. split; [assumption|]. rewrite I3. cbn [decimal String.length]. rewrite D1.
      rewrite Nat2Z.inj_succ, Z.pow_succ_r by lia. assert (E := Z.div_mod z 10 ltac:(lia)). nia.
Qed.
Lemma str_of_int_spec : forall z, (0 <= z)%Z -> all_digits (str_of_int z) /\ str_of_int z <> "" /\ decimal (str_of_int z) = z.
Proof.
  intros z Hz. unfold str_of_int. destruct (@digits_of_spec (S (Z.to_nat (Z.log2 z))) z "") as (A & B & C).
  - split; [assumption|]. rewrite Nat2Z.inj_succ, Z2Nat.id by apply Z.log2_nonneg. destruct (Z.eq_dec z 0) as [->|Hn]; [reflexivity|]. apply Z.log2_spec. lia.
  - lia.
  - exact I.
  - split; [assumption|]. split; [assumption|]. rewrite C. cbn. lia.
Qed.

Section C.
Context {V : Type}.
Notation faccess := (faccess V).
Notation dcoll := (dcoll V).
Context (pulse : V -> Z).
Context (tag : string) (d : dcoll) (nmo : option string) (modules : option (list Z)) (min : Z) (m : mpx V).
Context (HD : detector_of tag d nmo modules min m).
Let HM := detector_made HD.
Let R := proj1 HD.
Let K := proj1 (proj2 HD).
Let G := proj1 (proj2 (proj2 HD)).
Let sel := mx_train_ids m.
Let F := Z.to_nat (mx_fpt m).
Context (shape : list Z).

Lemma write_inv : forall c, write_virtual_cxi pulse m shape = Ok c ->
  collect_pulse_ids pulse m = Ok (cx_pulse_id c) /\ cx_train_id c = ids_per_frame m /\
  cx_experiment_id c = map (fun p => (str_of_int (fst p) ++ ":" ++ str_of_int (snd p))%string) (combine (ids_per_frame m) (cx_pulse_id c)) /\
  cx_module_id c = zsort (map snd (mx_modules m)) /\
  collect_data m shape = Ok (cx_layouts_of c).
Proof.
  intros c H. unfold write_virtual_cxi in H. apply bind_ok in H as (ps & H1 & H). apply bind_ok in H as (ls & H2 & H). apply bind_ok in H as (dg & H3 & H).
  injection H as <-. cbn. auto.
Qed.
Lemma layouts_empty : forall ls, cxi_layouts m shape = Ok ls -> Forall (fun p => forall i c, ly_at (snd p) i c = None) ls.
Proof.
  intros ls H. unfold cxi_layouts in H. destruct (mx_modules m) as [|[src n0] r]; [discriminate|]. destruct (source_files _ src) as [|f0 r0]; [discriminate|].
  apply bind_ok in H as (data & _ & H). apply bind_ok in H as (l & Hl & H). apply bind_ok in H as (cell & _ & H). injection H as <-.
  apply Forall_app. split; [|repeat constructor].
  destruct (fa_dataset f0 _) in Hl; [|injection Hl as <-; repeat constructor]. injection Hl as <-. do 2 (constructor; [reflexivity|]).
  destruct (fa_dataset f0 _); repeat constructor.
Qed.
Lemma layout_from : forall ls nm ly, collect_data m shape = Ok ls -> In (nm, ly) ls ->
  exists ly0, (forall i c, ly_at ly0 i c = None) /\ foldM (module_layout m ("image." ++ nm)) ly0 (mx_modules m) = Ok ly.
Proof.
  intros ls nm ly H Hin. unfold collect_data in H. apply bind_ok in H as (ls0 & H0 & H). apply layouts_empty in H0. apply mapM_ok_iff in H.
  apply (Forall2_In_r H) in Hin as ([nm0 ly0] & Hin0 & Hf). unfold fill_layout in Hf. apply bind_ok in Hf as (l & Hl & Hf). injection Hf as -> ->. cbn [fst snd] in *.
  exists ly0. split; [|assumption]. rewrite Forall_forall in H0. exact (H0 _ Hin0).
Qed.

Theorem cxi_frames : forall c nm ly, write_virtual_cxi pulse m shape = Ok c -> In (nm, ly) (cx_layouts_of c) ->
  (forall s n, is_module_of d (mx_name m) modules s n -> module_files d s ("image." ++ nm)) ->
  forall j t i, nth_error sel j = Some t -> (i < F)%nat ->
  nth_error (cx_train_id c) (j * F + i) = Some t /\
  (forall s n v, is_module_of d (mx_name m) modules s n -> (ly_at ly (j * F + i) n = Some v <-> frame_value d s ("image." ++ nm) t i v)) /\
  (forall n, (forall s, ~ is_module_of d (mx_name m) modules s n) -> ly_at ly (j * F + i) n = None).
Proof.
  intros c nm ly H Hin HK j t i Hj Hi. apply write_inv in H as (_ & H2 & _ & _ & H5). destruct (layout_from H5 Hin) as (ly0 & L0 & L1).
  split; [|exact (layout_filled R K G HM HK L0 L1 Hj Hi)]. rewrite H2. now apply (ids_at HM).
Qed.
Theorem cxi_frames_bound : forall nm s n, is_module_of d (mx_name m) modules s n -> module_files d s ("image." ++ nm) ->
  forall t i v, In t sel -> frame_value d s ("image." ++ nm) t i v -> (i < F)%nat.
Proof. intros nm s n Hm HF t i v Ht Hv. exact (frame_bound R K HM Hm HF (image_index s nm) Ht Hv). Qed.
Lemma cxi_train_length : forall c, write_virtual_cxi pulse m shape = Ok c -> List.length (cx_train_id c) = (List.length sel * F)%nat.
Proof. intros c H. apply write_inv in H as (_ & H & _). rewrite H. apply (ids_at HM). Qed.

Lemma cxi_module_ids : forall c, write_virtual_cxi pulse m shape = Ok c -> StronglySorted Z.lt (cx_module_id c) /\
  forall n, In n (cx_module_id c) <-> exists s, is_module_of d (mx_name m) modules s n.
Proof.
  intros c H. apply write_inv in H as (_ & _ & _ & H & _). rewrite H.
  assert (HP := sort_key_perm (fun z : Z => z) (map snd (mx_modules m))); fold (zsort (map snd (mx_modules m))) in HP. split.
  - assert (S := sort_key_sorted (fun z : Z => z) (map snd (mx_modules m))); fold (zsort (map snd (mx_modules m))) in S. assert (N : NoDup (zsort (map snd (mx_modules m)))).
    { eapply Permutation_NoDup; [exact HP|]. rewrite (mk_mods HM). exact (mk_nodup HM). }
    clear -S N. induction S as [|x l Hl IH Hx]; constructor; inversion N; subst; [now apply IH|].
    rewrite Forall_forall in *. intros y Hy. specialize (Hx y Hy). assert (x <> y) by (intros ->; contradiction). lia.
  - intros n. split.
    + intros Hn. apply (Permutation_in _ (Permutation_sym HP)) in Hn. apply in_map_iff in Hn as ([s n'] & <- & Hn). exists s. now apply (in_modules HM).
    + intros (s & Hs). apply (Permutation_in _ HP). apply (in_modules HM) in Hs. apply in_map_iff. exists (s, n). auto.
Qed.

Context (HR : cxi_ready pulse d m modules).
Let H16 s n H := proj1 (HR (s := s) (n := n) H).
Let HPf s n H := proj1 (proj2 (HR (s := s) (n := n) H)).
Let HSm s n H := proj2 (proj2 (HR (s := s) (n := n) H)).

Theorem cxi_pulses : forall c, write_virtual_cxi pulse m shape = Ok c -> List.length (cx_pulse_id c) = (List.length sel * F)%nat /\
  forall j t i, nth_error sel j = Some t -> (i < F)%nat -> exists p, nth_error (cx_pulse_id c) (j * F + i) = Some p /\ agreed_pulse pulse d (mx_name m) modules t i p.
Proof. intros c H. apply write_inv in H as (H & _). exact (proj1 (pulses_spec R K G HM HPf H16 HSm) _ H). Qed.
Theorem cxi_refuses : forall t i, In t sel -> (i < F)%nat -> (forall p, ~ agreed_pulse pulse d (mx_name m) modules t i p) -> write_virtual_cxi pulse m shape = Err EException.
Proof.
  intros t i Ht Hi Hno. destruct (pulses_spec R K G HM HPf H16 HSm) as (P1 & _ & P3). unfold write_virtual_cxi.
  destruct (collect_pulse_ids pulse m) as [ps|e] eqn:E; [|cbn; now rewrite (P3 e eq_refl)]. exfalso.
  apply In_nth_error in Ht as (j & Hj). destruct (proj2 (P1 ps eq_refl) j t i Hj Hi) as (p & _ & Hp). exact (Hno p Hp).
Qed.

Theorem cxi_ids : forall c, write_virtual_cxi pulse m shape = Ok c -> (forall t, In t sel -> (0 <= t)%Z) ->
  List.length (cx_experiment_id c) = (List.length sel * F)%nat /\
  forall j t i p, nth_error sel j = Some t -> (i < F)%nat -> nth_error (cx_pulse_id c) (j * F + i) = Some p ->
  exists a b, nth_error (cx_experiment_id c) (j * F + i) = Some (a ++ ":" ++ b)%string /\
    all_digits a /\ a <> "" /\ decimal a = t /\ all_digits b /\ b <> "" /\ decimal b = p.
Proof.
  intros c H H0. assert (HL := proj1 (cxi_pulses H)). assert (Hp := proj2 (cxi_pulses H)).
  apply write_inv in H as (H & _ & H3 & _). destruct (ids_at HM) as [I1 I2]. fold sel F in I1, I2. rewrite H3. split.
  - rewrite map_length, combine_length, HL, I1. apply Nat.min_id.
  - intros j t i p Hj Hi Hn. exists (str_of_int t), (str_of_int p).
    rewrite nth_error_map. rewrite nth_error_combine, (I2 j t i Hj Hi), Hn. cbn [option_map fst snd]. split; [reflexivity|].
    destruct (str_of_int_spec (z := t)) as (A & B & C); [apply H0; eapply nth_error_In; exact Hj|].
    destruct (Hp j t i Hj Hi) as (p' & Hn' & ((s & n & Hm & Hfp) & _)). rewrite Hn in Hn'. injection Hn' as <-. assert (Hsp := HSm Hm Hfp).
    destruct (str_of_int_spec (z := p)) as (A' & B' & C'); [lia|]. auto 10.
Qed.

Lemma digits_colon : forall a b a' b', all_digits a -> all_digits a' -> (a ++ ":" ++ b)%string = (a' ++ ":" ++ b')%string -> a = a' /\ b = b'.
Proof.
  induction a as [|x a IH]; intros b [|x' a'] b' Ha Ha' E; cbn in *.
  - injection E as <-. auto.
  - injection E as <- _. destruct Ha' as [Ha' _]. discriminate.
  - injection E as -> _. destruct Ha as [Ha _]. discriminate.
  - injection E as -> E. destruct (IH b a' b') as [-> ->]; [tauto|tauto|exact E|]. auto.
Qed.
Theorem cxi_ids_unique : forall c, write_virtual_cxi pulse m shape = Ok c -> (forall t, In t sel -> (0 <= t)%Z) ->
  forall x y id t t' p p', nth_error (cx_experiment_id c) x = Some id -> nth_error (cx_experiment_id c) y = Some id ->
  nth_error (cx_train_id c) x = Some t -> nth_error (cx_train_id c) y = Some t' ->
  nth_error (cx_pulse_id c) x = Some p -> nth_error (cx_pulse_id c) y = Some p' -> t = t' /\ p = p'.
Proof.
  intros c H H0 x y id t t' p p' X1 Y1 X2 Y2 X3 Y3.
  assert (Q : forall x id t p, nth_error (cx_experiment_id c) x = Some id -> nth_error (cx_train_id c) x = Some t -> nth_error (cx_pulse_id c) x = Some p ->
     exists a b, id = (a ++ ":" ++ b)%string /\ all_digits a /\ decimal a = t /\ decimal b = p).
  { clear x y id t t' p p' X1 Y1 X2 Y2 X3 Y3. intros x id t p X1 X2 X3. destruct (cxi_ids H H0) as [I1 I2].
    assert (Hx := nth_error_Some_lt _ _ X1). rewrite I1 in Hx. destruct (frame_split HM (fr := x) Hx) as (j & t0 & i & Hj & Hi & Ex). change (Z.to_nat (mx_fpt m)) with F in Ex, Hi. subst x.
    destruct (I2 j t0 i p Hj Hi X3) as (a & b & E & A1 & A2 & A3 & _ & _ & A4). exists a, b. rewrite X1 in E. injection E as ->. split; [reflexivity|]. split; [assumption|]. split; [|assumption].
    apply write_inv in H as (_ & H & _). rewrite H in X2. assert (Q := proj2 (ids_at HM) j t0 i Hj Hi). change (Z.to_nat (mx_fpt m)) with F in Q. congruence. }
  destruct (Q x id t p X1 X2 X3) as (a & b & E1 & D1 & A1 & B1). destruct (Q y id t' p' Y1 Y2 Y3) as (a' & b' & E2 & D2 & A2 & B2). rewrite E1 in E2.
  destruct (digits_colon D1 D2 E2) as [-> ->]. split; congruence.
Qed.

(** ** Which datasets, and success *)
Context (HA : forall s n, is_module_of d (mx_name m) modules s n -> exists f t, In t sel /\ holds d f s t).
Lemma first_file : exists s n r f, mx_modules m = (s, n) :: r /\ is_module_of d (mx_name m) modules s n /\ In f (source_files (dc_files (mx_data m)) s) /\
  (exists r', source_files (dc_files (mx_data m)) s = f :: r') /\ In f (dc_files d) /\ In s (fa_sources f).
Proof.
  destruct (mk_unif HM) as (_ & (s0 & n0 & _ & Hm0 & _) & _). apply (in_modules HM) in Hm0. destruct (mx_modules m) as [|[s n] r] eqn:E; [destruct Hm0|].
  assert (Hm : is_module_of d (mx_name m) modules s n) by (apply (in_modules HM); rewrite E; now left).
  destruct (HA Hm) as (f' & t & Ht & Hh). apply (det_holds HM Hm f' Ht) in Hh as [Hf _].
  destruct (source_files (dc_files (mx_data m)) s) as [|f r'] eqn:Es; [destruct Hf|]. exists s, n, r, f. split; [reflexivity|]. split; [assumption|].
  split; [rewrite Es; now left|]. split; [exists r'; exact Es|]. assert (Hf' : In f (source_files (dc_files (mx_data m)) s)) by (rewrite Es; now left). apply source_files_In in Hf' as [X Y].
  split; [|assumption]. destruct (mk_narrow HM) as (N1 & _). auto.
Qed.
Lemma present_dataset : forall nm b s n f, image_dataset d (mx_name m) modules nm b -> is_module_of d (mx_name m) modules s n -> In f (dc_files d) -> In s (fa_sources f) ->
  if b then exists ds, fa_dataset f (ds_path "INSTRUMENT" s ("image." ++ nm)) = Ok ds /\ dict_get (data_key false s ("image." ++ nm)) (h5_data (fa_file f)) = Some ds
  else exists e, fa_dataset f (ds_path "INSTRUMENT" s ("image." ++ nm)) = Err e.
Proof.
  intros nm b s n f Hb Hm Hf Hs. assert (X := Hb s n f Hm Hf Hs). unfold fa_dataset. rewrite ds_path_inst.
  destruct (dict_get _ _) as [ds|] eqn:E; destruct b.
  - eauto.
  - exfalso. assert (false = true) by (apply X; eauto). discriminate.
  - exfalso. destruct (proj2 X eq_refl). discriminate.
  - eauto.
Qed.
Context (bg bm : bool) (Hgain : image_dataset d (mx_name m) modules "gain" bg) (Hmask : image_dataset d (mx_name m) modules "mask" bm).
Definition names : list string := "data" :: (if bg then "gain" :: (if bm then ["mask"] else []) else []) ++ ["cellId"].
Theorem cxi_names : forall c, write_virtual_cxi pulse m shape = Ok c -> map fst (cx_layouts_of c) = names.
Proof.
  intros c H. apply write_inv in H as (_ & _ & _ & _ & H). unfold collect_data in H. apply bind_ok in H as (ls0 & H0 & H).
  assert (E : map fst (cx_layouts_of c) = map fst ls0).
  { apply mapM_ok_iff in H. clear -H. induction H as [|x y l l' H Hl IH]; [reflexivity|]. unfold fill_layout in H. apply bind_ok in H as (? & _ & H). injection H as <-. cbn. now rewrite IH. }
  rewrite E. unfold cxi_layouts in H0. destruct first_file as (s & n & r & f & Emm & Hm & Hf & (r' & Hr) & Hfd & Hfs). rewrite Emm, Hr in H0. clear Hr.
  apply bind_ok in H0 as (data & _ & H0). apply bind_ok in H0 as (l & Hl & H0). apply bind_ok in H0 as (cell & _ & H0). injection H0 as <-. rewrite map_app.
  assert (G1 := present_dataset Hgain Hm Hfd Hfs). assert (G2 := present_dataset Hmask Hm Hfd Hfs). unfold names. destruct bg.
  - destruct G1 as (g1 & G1 & _). rewrite G1 in Hl. destruct bm; destruct G2 as (g2 & G2); [destruct G2 as [G2 _]|]; rewrite G2 in Hl; injection Hl as <-; reflexivity.
  - destruct G1 as (g1 & G1). rewrite G1 in Hl. injection Hl as <-. reflexivity.
Qed.

(** [item] is the shape of the frames; with gain the shape is fixed. *)
Context (item : list Z) (Hitem : item <> []).
Context (Hdata : forall s n, is_module_of d (mx_name m) modules s n -> forall nm, In nm names -> module_files d s ("image." ++ nm) /\
   entry_size d s ("image." ++ nm) (if String.eqb nm "cellId" then 1%Z else z_prod item)).
Context (Hshape : if bg then shape = item else forall s n f ds, is_module_of d (mx_name m) modules s n -> In f (dc_files d) -> In s (fa_sources f) ->
   dict_get (data_key false s "image.data") (h5_data (fa_file f)) = Some ds -> ds_item ds = item).
Theorem cxi_accepts : (forall t i, In t sel -> (i < F)%nat -> exists p, agreed_pulse pulse d (mx_name m) modules t i p) ->
  exists c, write_virtual_cxi pulse m shape = Ok c.
Proof.
  intros Hag. destruct (proj1 (proj2 (pulses_spec R K G HM HPf H16 HSm)) Hag) as (ps & Hps). unfold write_virtual_cxi. rewrite Hps. cbn [bind].
  assert (HLs : exists ls0, cxi_layouts m shape = Ok ls0 /\ Forall (fun p => In (fst p) names /\ z_prod (ly_item (snd p)) = if String.eqb (fst p) "cellId" then 1%Z else z_prod item) ls0 /\
     exists ly r, ls0 = ("data", ly) :: r /\ ly_item ly = item).
  { unfold cxi_layouts. destruct first_file as (s & n & r & f & -> & Hm & Hf & (r' & Hr) & Hfd & Hfs). rewrite Hr. clear Hr.
    assert (D : forall nm, In nm names -> exists ds, fa_dataset f (ds_path "INSTRUMENT" s ("image." ++ nm)) = Ok ds /\ dict_get (data_key false s ("image." ++ nm)) (h5_data (fa_file f)) = Some ds).
    { intros nm Hn. destruct (Hdata Hm Hn) as [Hf1 _]. destruct (Hf1 f Hfd Hfs) as (_ & _ & g & ds & pds & _ & _ & Hds & _). exists ds. split; [|assumption]. unfold fa_dataset. now rewrite ds_path_inst, Hds. }
    assert (N1 : In "data" names) by now left. assert (N2 : In "cellId" names) by (right; apply in_or_app; right; now left).
    destruct (D "data" N1) as (data & Ed & Edd). rewrite Ed. cbn [bind]. destruct (D "cellId" N2) as (cell & Ec & _).
    assert (G1 := present_dataset Hgain Hm Hfd Hfs). assert (G2 := present_dataset Hmask Hm Hfd Hfs). unfold names in N1, N2 |- *.
    destruct bg.
    - destruct G1 as (g1 & G1 & _). rewrite G1. cbn [bind]. rewrite Ec. cbn [bind]. eexists. split; [reflexivity|]. rewrite Hshape. split; [|eexists; eexists; split; reflexivity].
      destruct bm; destruct G2 as (g2 & G2); [destruct G2 as [G2 _]|]; rewrite G2; cbn [app]; repeat (apply Forall_cons; [split; [cbn; auto 10|reflexivity]|]); apply Forall_nil.
    - destruct G1 as (g1 & G1). rewrite G1. cbn [bind]. rewrite Ec. cbn [bind]. eexists. split; [reflexivity|].
      assert (Ei := Hshape s n f data Hm Hfd Hfs Edd). rewrite Ei. split; [|eexists; eexists; split; reflexivity]. cbn [app]. repeat (apply Forall_cons; [split; [cbn; auto 10|reflexivity]|]); apply Forall_nil. }
  destruct HLs as (ls0 & E0 & F0 & (ly & r & Els & Eit)). unfold collect_data. rewrite E0. cbn [bind].
  assert (Hmm : exists ls, mapM (fill_layout m) ls0 = Ok ls /\ Forall2 (fun p q => fst q = fst p /\ ly_item (snd q) = ly_item (snd p)) ls0 ls).
  { clear E0 Els. induction F0 as [|[nm l] ls0 [Hn Hz] F0 IH]; [exists []; split; [reflexivity|constructor]|]. destruct IH as (ls & IH & IH2). cbn [fst snd] in *.
    destruct (@layout_progress V d (mx_name m) modules min m R K HM H16 nm (fun s n Hm => proj1 (Hdata Hm Hn)) l _ Hz (fun s n Hm => proj2 (Hdata Hm Hn))) as (l' & Hl').
    exists ((nm, l') :: ls). cbn [mapM]. unfold fill_layout at 1. cbn [fst snd]. rewrite Hl'. cbn [bind]. rewrite IH. cbn [bind]. split; [reflexivity|]. constructor; [|assumption].
    cbn. split; [reflexivity|]. exact (proj2 (layout_item Hl')). }
  destruct Hmm as (ls & -> & F2). cbn [bind]. rewrite Els in F2. inversion F2 as [|p q l1 l2 [Q1 Q2] F3]; subst. destruct q as [nm' l']. cbn [fst snd] in *. subst nm'.
  cbn [dict_get]. change (String.eqb "data" "data") with true. cbn iota. rewrite Q2.
  destruct (ly_item ly) as [|a [|b [|cc l]]]; [congruence| | |]; cbn [data_gain bind]; eauto.
Qed.
End C.
