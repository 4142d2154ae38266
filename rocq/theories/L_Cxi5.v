(** Lemmas on the CXI writer: pulse IDs and virtual datasets. *)
From Verif Require Import Base PyStr M_Files M_Machinery M_Reader M_Glob M_Select M_Series M_Stacking M_Components M_Cxi
  S_Reader S_Coll S_Glob S_Select S_Avail S_Series S_Stacking S_Components S_Cxi
  L_Base L_Machinery L_Reader L_GetArray L_Select L_Trains L_SelTrains L_Array2 L_Glob L_Sel2 L_Sel3 L_Hist L_Series L_Stacking L_Writer5
  L_Components L_Components2 L_Components3 L_Components4 L_Components5 L_Components6 L_Components7 L_Components8 L_Components12 L_Cxi L_Cxi2 L_Cxi3 L_Cxi4.
Set Implicit Arguments. Unset Strict Implicit.
Local Open Scope string_scope.
Local Open Scope list_scope.

(** ** The checks of one frame *)
Lemma row_min_spec : forall r, r <> [] -> In (row_min r) r /\ forall q, In q r -> (row_min r <= q)%Z.
Proof.
  intros [|a r] H; [congruence|]. unfold row_min. cbn [hd]. clear H.
  assert (X : forall l, (fold_right Z.min a l = a \/ In (fold_right Z.min a l) l) /\ (fold_right Z.min a l <= a)%Z /\ forall q, In q l -> (fold_right Z.min a l <= q)%Z).
  { induction l as [|x l (I1 & I2 & I3)]; cbn; [split; [now left|]; split; [lia|contradiction]|]. split; [|split; [lia|]].
    - destruct (Z.min_spec x (fold_right Z.min a l)) as [[_ ->]|[_ ->]]; [right; now left|]. destruct I1; [now left|right; now right].
    - intros q [<-|Hq]; [lia|]. specialize (I3 q Hq). lia. }
  destruct (X (a :: r)) as (X1 & X2 & X3). split; [destruct X1 as [->|X1]; [now left|assumption]|exact X3].
Qed.
Lemma row_max_spec : forall r, (forall q, In q r -> (q <= row_max r)%Z) /\ (0 <= row_max r)%Z /\ (row_max r = 0%Z \/ In (row_max r) r).
Proof.
  unfold row_max. induction r as [|x r (I1 & I2 & I3)]; cbn; [split; [contradiction|]; split; [lia|now left]|]. split; [|split].
  - intros q [<-|Hq]; [lia|]. specialize (I1 q Hq). lia.
  - lia.
  - destruct (Z.max_spec x (fold_right Z.max 0%Z r)) as [[_ ->]|[_ ->]]; [destruct I3; [now left|right; now right]|right; now left].
Qed.
Definition mark0 (p : Z) : Z := if (p =? NO_PULSE_ID)%Z then 0%Z else p.
Lemma row_check : forall r, r <> [] -> 
  (row_min r <> NO_PULSE_ID /\ row_min r = row_max (map mark0 r) -> forall q, In q r -> q = NO_PULSE_ID \/ q = row_min r) /\
  (forall p, (0 <= p < NO_PULSE_ID)%Z -> In p r -> (forall q, In q r -> q = NO_PULSE_ID \/ q = p) ->
     row_min r = p /\ row_min r <> NO_PULSE_ID /\ row_min r = row_max (map mark0 r)).
Proof.
  intros r Hr. destruct (row_min_spec Hr) as [M1 M2]. destruct (row_max_spec (map mark0 r)) as (X1 & X2 & X3). split.
  - intros [H1 H2] q Hq. destruct (Z.eq_dec q NO_PULSE_ID) as [E|E]; [now left|right].
    specialize (M2 q Hq). assert (Hq' : In q (map mark0 r)). { apply in_map_iff. exists q. split; [|assumption]. unfold mark0. destruct (Z.eqb_spec q NO_PULSE_ID); [contradiction|reflexivity]. }
    specialize (X1 q Hq'). lia.
  - intros p Hp Hin Hall. assert (Em : row_min r = p). { specialize (M2 p Hin). destruct (Hall _ M1) as [E|E]; [|assumption]. lia. }
    split; [assumption|]. split; [lia|]. rewrite Em.
    assert (Hp' : In p (map mark0 r)). { apply in_map_iff. exists p. split; [|assumption]. unfold mark0. destruct (Z.eqb_spec p NO_PULSE_ID); [lia|reflexivity]. }
    specialize (X1 p Hp'). destruct X3 as [E|E]; [lia|]. apply in_map_iff in E as (q & E & Hq). destruct (Hall q Hq) as [-> | ->].
    + assert (mark0 NO_PULSE_ID = 0)%Z by reflexivity. lia.
    + assert (mark0 p = p) by (unfold mark0; destruct (Z.eqb_spec p NO_PULSE_ID); lia). lia.
Qed.

(** ** Assignments *)
Section Put.
Context {V : Type}.
Lemma put_pulses_works : forall modno rows, put_works (fun (t : ptable) => t) (fun z => z) (put_pulses modno rows) modno rows.
Proof.
  intros modno rows start src n tgt tgt' H1 H2 H3 H4 H. unfold put_pulses in H. destruct (n_modules <=? modno)%Z; [discriminate|].
  assert (HL : List.length (zslice rows src (src + Z.of_nat n)) = n). { assert (X := zslice_length (l := rows) (a := src) (n := Z.of_nat n) H2 ltac:(lia) H4). lia. }
  apply bind_ok in H as (vals & Hv & H). injection H as <-.
  assert (Ev : vals = zslice rows src (src + Z.of_nat n)).
  { destruct (zslice rows src (src + Z.of_nat n)) as [|x [|y l]] eqn:E.
    - cbn in HL. lia.
    - cbn in HL. subst n. cbn in Hv. congruence.
    - rewrite HL, Nat.eqb_refl in Hv. congruence. }
  intros i c. split.
  - intros -> [Ha Hb] v Hn. rewrite Z.eqb_refl. replace (start <=? Z.of_nat i)%Z with true by (symmetry; now apply Z.leb_le).
    replace (Z.of_nat i <? start + Z.of_nat n)%Z with true by (symmetry; now apply Z.ltb_lt). cbn [andb]. apply nth_error_nth. rewrite Ev, nth_error_zslice by lia. exact Hn.
  - intros Hc. replace ((c =? modno) && (start <=? Z.of_nat i) && (Z.of_nat i <? start + Z.of_nat n))%Z with false; [reflexivity|].
    symmetry. destruct Hc as [Hc|Hc]; [destruct (Z.eqb_spec c modno); [contradiction|reflexivity]|].
    destruct (c =? modno)%Z; [|reflexivity]. cbn [andb]. destruct (Z.leb_spec start (Z.of_nat i)); [|reflexivity]. cbn [andb]. destruct (Z.ltb_spec (Z.of_nat i) (start + Z.of_nat n)); [exfalso; apply Hc; lia|reflexivity].
Qed.
Lemma put_pulses_progress : forall modno rows, (modno < n_modules)%Z -> progress rows (put_pulses modno rows) (fun _ => True).
Proof.
  intros modno rows Hm start src n tgt H1 H2 H3 H4 _. unfold put_pulses. replace (n_modules <=? modno)%Z with false by (symmetry; now apply Z.leb_gt).
  assert (HL : List.length (zslice rows src (src + Z.of_nat n)) = n). { assert (X := zslice_length (l := rows) (a := src) (n := Z.of_nat n) H2 ltac:(lia) H4). lia. }
  destruct (zslice rows src (src + Z.of_nat n)) as [|x [|y l]]; cbn [bind].
  - cbn in HL. lia.
  - eauto.
  - rewrite HL, Nat.eqb_refl. cbn [bind]. eauto.
Qed.
Lemma put_layout_works : forall modno (ds : dataset V), put_works (@ly_at V) (@Some V) (put_layout modno ds) modno (ds_rows ds).
Proof.
  intros modno ds start src n tgt tgt' H1 H2 H3 H4 H. unfold put_layout in H. destruct (n_modules <=? modno)%Z; [discriminate|].
  destruct (negb _) eqn:E in H; [discriminate|]. injection H as <-. cbn [ly_at].
  intros i c. split.
  - intros -> [Ha Hb] v Hn. rewrite Z.eqb_refl. replace (start <=? Z.of_nat i)%Z with true by (symmetry; now apply Z.leb_le).
    replace (Z.of_nat i <? start + Z.of_nat n)%Z with true by (symmetry; now apply Z.ltb_lt). cbn [andb]. rewrite nth_error_zslice by lia. exact Hn.
  - intros Hc. replace ((c =? modno) && (start <=? Z.of_nat i) && (Z.of_nat i <? start + Z.of_nat n))%Z with false; [reflexivity|].
    symmetry. destruct Hc as [Hc|Hc]; [destruct (Z.eqb_spec c modno); [contradiction|reflexivity]|].
    destruct (c =? modno)%Z; [|reflexivity]. cbn [andb]. destruct (Z.leb_spec start (Z.of_nat i)); [|reflexivity]. cbn [andb]. destruct (Z.ltb_spec (Z.of_nat i) (start + Z.of_nat n)); [exfalso; apply Hc; lia|reflexivity].
Qed.
Lemma put_layout_progress : forall modno (ds : dataset V) e, (modno < n_modules)%Z -> z_prod (ds_item ds) = e ->
  progress (ds_rows ds) (put_layout modno ds) (fun l => z_prod (ly_item l) = e).
Proof.
  intros modno ds e Hm He start src n tgt H1 H2 H3 H4 Hg. unfold put_layout. replace (n_modules <=? modno)%Z with false by (symmetry; now apply Z.leb_gt).
  assert (HL : List.length (zslice (ds_rows ds) src (src + Z.of_nat n)) = n). { assert (X := zslice_length (l := ds_rows ds) (a := src) (n := Z.of_nat n) H2 ltac:(lia) H4). lia. }
  rewrite HL, Nat.eqb_refl, He, Hg, Z.eqb_refl. cbn. eauto.
Qed.
End Put.

Section C.
Context {V : Type}.
Notation faccess := (faccess V).
Notation dcoll := (dcoll V).
Context (pulse : V -> Z).
Context (d : dcoll) (name : string) (modules : option (list Z)) (min : Z) (m : mpx V).
Context (R : reachable d) (K : distinct_kinds d) (G : good_files d).
Context (HM : made d name modules min m).
Let sel := mx_train_ids m.
Let F := Z.to_nat (mx_fpt m).

Lemma in_modules : forall s n, In (s, n) (mx_modules m) <-> is_module_of d name modules s n.
Proof. intros s n. rewrite (mk_mods HM). apply module_list_In. Qed.

(** ** Pulse IDs *)
Definition pvals (s : string) (f : faccess) : list Z := map (fun v => u64 (pulse v)) (ds_rows (dds f s "image.pulseId")).
Context (HP : forall s n, is_module_of d name modules s n -> module_files d s "image.pulseId").

Lemma chunk_pulses_ok : forall s n c, is_module_of d name modules s n -> In (ch_file c) (source_files (dc_files (mx_data m)) s) ->
  chunk_pulses pulse s c = Ok (pvals s (ch_file c)).
Proof.
  intros s n c Hm Hc. unfold chunk_pulses. rewrite (chunk_dataset R K HM Hm (HP Hm) eq_refl Hc). cbn [bind].
  destruct (fs_data HM (HP Hm) Hc) as ((_ & Hmd) & _). assert (Hi := md_item Hmd).
  assert (E : dpds (ch_file c) s "image.pulseId" = dds (ch_file c) s "image.pulseId") by reflexivity. rewrite E in Hi.
  destruct Hi as [-> | ->]; reflexivity.
Qed.

Lemma pulses_table : forall tb, foldM (module_pulses pulse m) (fun _ _ => NO_PULSE_ID) (mx_modules m) = Ok tb ->
  forall j t i, nth_error sel j = Some t -> (i < F)%nat ->
  (forall s n p, is_module_of d name modules s n -> frame_pulse pulse d s t i p -> tb (j * F + i)%nat n = u64 p) /\
  (forall c, tb (j * F + i)%nat c = NO_PULSE_ID \/ exists s p, is_module_of d name modules s c /\ frame_pulse pulse d s t i p /\ tb (j * F + i)%nat c = u64 p).
Proof.
  intros tb Htb j t i Hj Hi.
  assert (HN : NoDup (map snd (mx_modules m))) by (rewrite (mk_mods HM); exact (mk_nodup HM)).
  assert (Hs : forall sm t1 t2, In sm (mx_modules m) -> module_pulses pulse m t1 sm = Ok t2 ->
     effA F sel (fun x : ptable => x) (fun z : Z => z) (snd sm) (module_rows m (fst sm) "image.pulseId" (pvals (fst sm))) t1 t2).
  { intros [s n] t1 t2 Hin H. apply in_modules in Hin. unfold module_pulses in H. apply bind_ok in H as (chunks & Hc & H). cbn [fst snd] in *.
    apply (@module_effect V d name modules min m R K G HM s n Hin "image.pulseId" (HP Hin) eq_refl ptable Z Z (fun x => x) (fun z => z) (pvals s) (list Z) (chunk_pulses pulse s) (put_pulses n)) with chunks; try assumption.
    - intros f _. unfold pvals. now rewrite map_length.
    - intros c x Hcf Hx. rewrite (chunk_pulses_ok Hin Hcf) in Hx. injection Hx as <-. apply put_pulses_works. }
  destruct (modules_effect Hs HN Htb Hj Hi) as [E1 E2].
  assert (Ht : In t sel) by (eapply nth_error_In; exact Hj). split.
  - intros s n p Hm (v & Hv & ->). specialize (E1 (s, n) (proj2 (in_modules s n) Hm)). cbn [fst snd] in E1.
    destruct (frame_at R K G HM Hm (HP Hm) eq_refl (fun v => u64 (pulse v)) i Ht) as [X _]. unfold pvals in E1. rewrite (X v Hv) in E1. exact E1.
  - intros c. destruct (in_dec Z.eq_dec c (map snd (mx_modules m))) as [Hin|Hin]; [|left; now apply E2].
    apply in_map_iff in Hin as ([s n] & <- & Hin). specialize (E1 _ Hin). cbn [fst snd] in *. apply in_modules in Hin.
    destruct (nth_error _ i) as [w|] eqn:Ew in E1; [|left; exact E1]. right.
    destruct (frame_at R K G HM Hin (HP Hin) eq_refl (fun v => u64 (pulse v)) i Ht) as [_ X]. apply X in Ew as (v & Hv & ->).
    exists s, (pulse v). split; [assumption|]. split; [exists v; auto|assumption].
Qed.

Context (H16 : forall s n, is_module_of d name modules s n -> (n < n_modules)%Z).

Lemma pulses_progress : exists tb, foldM (module_pulses pulse m) (fun _ _ => NO_PULSE_ID) (mx_modules m) = Ok tb.
Proof.
  destruct (@fold_progress ptable _ (module_pulses pulse m) (fun _ => True) (mx_modules m) (fun _ _ => NO_PULSE_ID)) as (tb & H & _); [|exact I|eauto].
  intros [s n] t1 Hin _. apply in_modules in Hin. unfold module_pulses. cbn [fst snd].
  destruct (chunks_exist R K HM Hin (HP Hin) eq_refl) as (chunks & Hc). rewrite Hc. cbn [bind].
  apply (@module_progress V d name modules min m R K HM s n Hin "image.pulseId" (HP Hin) eq_refl ptable Z Z (fun x => x) (fun z => z) (pvals s) (list Z) (chunk_pulses pulse s) (put_pulses n)); try assumption.
  - intros f _. unfold pvals. now rewrite map_length.
  - intros c x Hcf Hx. rewrite (chunk_pulses_ok Hin Hcf) in Hx. injection Hx as <-. apply put_pulses_works.
  - intros c Hcf. exists (pvals s (ch_file c)). split; [now apply chunk_pulses_ok with n|]. apply put_pulses_progress. now apply H16 with s.
  - exact I.
Qed.
End C.
