(** Lemmas on the CXI writer: the file. *)
From Verif Require Import Base PyStr M_Files M_Machinery M_Reader M_Glob M_Select M_Series M_Stacking M_Components M_Cxi
  S_Reader S_Coll S_Glob S_Select S_Avail S_Series S_Stacking S_Components S_Cxi
  L_Base L_Machinery L_Reader L_GetArray L_Select L_Trains L_SelTrains L_Array2 L_Glob L_Sel2 L_Sel3 L_Hist L_Series L_Stacking L_Stacking2 L_Writer5
  L_Components L_Components2 L_Components3 L_Components4 L_Components5 L_Components6 L_Components7 L_Components8 L_Components12 L_Cxi L_Cxi2 L_Cxi3 L_Cxi4 L_Cxi5.
Set Implicit Arguments. Unset Strict Implicit.
Local Open Scope string_scope.
Local Open Scope list_scope.

Lemma existsb_combine_map : forall A B (g : A -> B) (p : A * B -> bool) l, existsb p (combine l (map g l)) = existsb (fun x => p (x, g x)) l.
Proof. induction l as [|x l IH]; [reflexivity|]. cbn. now rewrite IH. Qed.
Lemma existsb_map : forall A B (g : A -> B) p l, existsb p (map g l) = existsb (fun x => p (g x)) l.
Proof. induction l as [|x l IH]; [reflexivity|]. cbn. now rewrite IH. Qed.
Lemma existsb_false : forall A (p : A -> bool) l, existsb p l = false <-> forall x, In x l -> p x = false.
Proof.
  induction l as [|x l IH]; cbn; [split; [contradiction|reflexivity]|]. rewrite Bool.orb_false_iff, IH. split.
  - intros [H1 H2] y [<-|Hy]; auto.
  - intros H. split; auto.
Qed.
Lemma module_number : forall name s n, module_source name s n -> (0 <= n)%Z.
Proof. intros name s n (ds & b & _ & _ & _ & ->). apply decimal_nonneg. Qed.

Section C.
Context {V : Type}.
Notation faccess := (faccess V).
Notation dcoll := (dcoll V).
Context (pulse : V -> Z).
Context (d : dcoll) (name : string) (modules : option (list Z)) (min : Z) (m : mpx V).
Context (R : reachable d) (K : distinct_kinds d) (G : good_files d).
Context (HM : made d name modules min m).
Let sel := mx_train_ids m.
Let F := Z.to_nat (mx_fpt m).

Lemma nframes_eq : Z.to_nat (cxi_nframes m) = (List.length sel * F)%nat.
Proof. unfold cxi_nframes. destruct (fpt_pos HM) as [_ H]. unfold sel, F. lia. Qed.
Lemma frame_split : forall fr, (fr < List.length sel * F)%nat -> exists j t i, nth_error sel j = Some t /\ (i < F)%nat /\ fr = (j * F + i)%nat.
Proof.
  intros fr H. destruct (fpt_pos HM) as [H0 _]. fold F in H0.
  assert (E := Nat.div_mod fr F ltac:(lia)). assert (Hm := Nat.mod_upper_bound fr F ltac:(lia)).
  assert (Hj : (fr / F < List.length sel)%nat) by (apply Nat.div_lt_upper_bound; lia).
  apply nth_error_Some in Hj. destruct (nth_error sel (fr / F)) as [t|] eqn:Et; [|congruence].
  exists (fr / F)%nat, t, (fr mod F)%nat. split; [assumption|]. split; [assumption|]. lia.
Qed.
Lemma frame_lt : forall j t i, nth_error sel j = Some t -> (i < F)%nat -> (j * F + i < List.length sel * F)%nat.
Proof. intros j t i H Hi. apply nth_error_Some_lt in H. nia. Qed.
Lemma ids_at : List.length (ids_per_frame m) = (List.length sel * F)%nat /\
  forall j t i, nth_error sel j = Some t -> (i < F)%nat -> nth_error (ids_per_frame m) (j * F + i) = Some t.
Proof.
  change (ids_per_frame m) with (blocks F sel). split; [apply blocks_length|]. intros j t i Hj Hi. destruct (fpt_pos HM) as [H0 _]. now apply blocks_nth.
Qed.

Context (HP : forall s n, is_module_of d name modules s n -> module_files d s "image.pulseId").
Context (H16 : forall s n, is_module_of d name modules s n -> (n < n_modules)%Z).
Context (HS : forall s n, is_module_of d name modules s n -> small_pulses pulse d s).

(** The pulse ID of a frame, if the modules agree. *)
Definition agreed (t : Z) (i : nat) (p : Z) : Prop :=
  (exists s n, is_module_of d name modules s n /\ frame_pulse pulse d s t i p) /\
  forall s n q, is_module_of d name modules s n -> frame_pulse pulse d s t i q -> q = p.

Lemma u64_small : forall p, (0 <= p < NO_PULSE_ID)%Z -> u64 p = p.
Proof. intros p H. unfold u64, NO_PULSE_ID in *. apply Z.mod_small. lia. Qed.

Lemma pulses_spec :
  (forall ps, collect_pulse_ids pulse m = Ok ps -> List.length ps = (List.length sel * F)%nat /\
     forall j t i, nth_error sel j = Some t -> (i < F)%nat -> exists p, nth_error ps (j * F + i) = Some p /\ agreed t i p) /\
  ((forall t i, In t sel -> (i < F)%nat -> exists p, agreed t i p) -> exists ps, collect_pulse_ids pulse m = Ok ps) /\
  (forall e, collect_pulse_ids pulse m = Err e -> e = EException).
Proof.
  destruct (pulses_progress pulse R K HM HP H16) as (tb & Htb).
  assert (HT := pulses_table R K G HM HP Htb). fold sel F in HT.
  set (row := fun fr : nat => map (fun c => tb fr (Z.of_nat c)) (seq 0 (Z.to_nat n_modules))).
  assert (Hne : forall fr, row fr <> []) by (intros fr; discriminate).
  assert (Hrow : forall fr q, In q (row fr) <-> exists c, (0 <= c < n_modules)%Z /\ q = tb fr c).
  { intros fr q. unfold row. rewrite in_map_iff. split.
    - intros (c & <- & Hc). apply in_seq in Hc. exists (Z.of_nat c). split; [lia|reflexivity].
    - intros (c & Hc & ->). exists (Z.to_nat c). split; [now rewrite Z2Nat.id by lia|]. apply in_seq. lia. }
  assert (E : collect_pulse_ids pulse m = if forallb (fun fr => (negb (row_min (row fr) =? NO_PULSE_ID) && (row_min (row fr) =? row_max (map mark0 (row fr))))%Z) (seq 0 (List.length sel * F))
              then Ok (map (fun fr => row_min (row fr)) (seq 0 (List.length sel * F))) else Err EException).
  { unfold collect_pulse_ids. rewrite Htb. cbn [bind]. unfold pulse_rows. rewrite nframes_eq. fold row.
    change (map (fun i : nat => map (fun c : nat => tb i (Z.of_nat c)) (seq 0 (Z.to_nat n_modules))) (seq 0 (List.length sel * F))) with (map row (seq 0 (List.length sel * F))).
    rewrite existsb_combine_map, !existsb_map, map_map. cbn [fst snd]. fold mark0.
    destruct (existsb (fun x => (NO_PULSE_ID =? row_min (row x))%Z) (seq 0 (List.length sel * F))) eqn:E1.
    - apply existsb_exists in E1 as (x & Hx & E1). destruct (forallb _ _) eqn:E2; [|reflexivity]. rewrite forallb_forall in E2. specialize (E2 x Hx).
      rewrite Z.eqb_sym, E1 in E2. discriminate.
    - rewrite existsb_false in E1. destruct (existsb _ _) eqn:E3 in |- *.
      + apply existsb_exists in E3 as (x & Hx & E3). destruct (forallb _ _) eqn:E2; [|reflexivity]. rewrite forallb_forall in E2. specialize (E2 x Hx).
        apply Bool.andb_true_iff in E2 as [_ E2]. rewrite E2 in E3. discriminate.
      + rewrite existsb_false in E3. replace (forallb _ _) with true; [reflexivity|]. symmetry. apply forallb_forall. intros x Hx.
        specialize (E1 x Hx). specialize (E3 x Hx). rewrite Z.eqb_sym in E1. rewrite E1. apply Bool.negb_false_iff in E3. rewrite E3. reflexivity. }
  assert (Hcol : forall s n, is_module_of d name modules s n -> (0 <= n < n_modules)%Z).
  { intros s n Hm. split; [|now apply H16 with s]. destruct Hm as (_ & Hm & _). now apply module_number in Hm. }
  assert (Hag : forall j t i, nth_error sel j = Some t -> (i < F)%nat ->
     ((row_min (row (j * F + i)) <> NO_PULSE_ID /\ row_min (row (j * F + i)) = row_max (map mark0 (row (j * F + i)))) -> agreed t i (row_min (row (j * F + i)))) /\
     (forall p, agreed t i p -> row_min (row (j * F + i)) <> NO_PULSE_ID /\ row_min (row (j * F + i)) = row_max (map mark0 (row (j * F + i))))).
  { intros j t i Hj Hi. destruct (HT j t i Hj Hi) as [T1 T2]. set (fr := (j * F + i)%nat) in *. clearbody fr.
    destruct (row_check (Hne fr)) as [C1 C2]. split.
    - intros H. specialize (C1 H). destruct H as [H1 _]. split.
      + destruct (row_min_spec (Hne fr)) as [M1 _]. apply Hrow in M1 as (c & Hc & M1). destruct (T2 c) as [T|(s & p & Hm & Hp & T)]; [congruence|].
        exists s, c. split; [assumption|]. rewrite M1, T, u64_small by (eapply HS; eassumption). exact Hp.
      + intros s n q Hm Hq. assert (Hs := HS Hm Hq). specialize (T1 s n q Hm Hq). rewrite u64_small in T1 by assumption.
        destruct (C1 q) as [Z|Z]; [apply Hrow; exists n; split; [now apply Hcol with s|congruence]| |exact Z]. unfold NO_PULSE_ID in *. lia.
    - intros p [(s & n & Hm & Hp) Ha]. assert (Hs := HS Hm Hp).
      destruct (C2 p Hs) as (Z1 & Z2 & Z3).
      + apply Hrow. exists n. split; [now apply Hcol with s|]. rewrite (T1 s n p Hm Hp). now rewrite u64_small.
      + intros q Hq. apply Hrow in Hq as (c & Hc & ->). destruct (T2 c) as [T|(s' & p' & Hm' & Hp' & T)]; [now left|right].
        rewrite T, (Ha s' c p' Hm' Hp'). now apply u64_small.
      + split; assumption. }
  rewrite E. split; [|split].
  - intros ps H. destruct (forallb _ _) eqn:Ef; [|discriminate]. injection H as <-. rewrite map_length, seq_length. split; [reflexivity|].
    intros j t i Hj Hi. assert (Hlt := frame_lt Hj Hi). exists (row_min (row (j * F + i)%nat)). split.
    + rewrite nth_error_map, nth_error_nth' with (d := 0%nat) by (now rewrite seq_length). now rewrite seq_nth.
    + apply (Hag j t i Hj Hi). rewrite forallb_forall in Ef. specialize (Ef (j * F + i)%nat). rewrite Bool.andb_true_iff, Bool.negb_true_iff, Z.eqb_neq, Z.eqb_eq in Ef. apply Ef. apply in_seq. lia.
  - intros H. replace (forallb _ _) with true; [eauto|]. symmetry. apply forallb_forall. intros fr Hfr. apply in_seq in Hfr.
    destruct (frame_split (fr := fr)) as (j & t & i & Hj & Hi & ->); [lia|]. destruct (H t i) as (p & Hp); [eapply nth_error_In; exact Hj|assumption|].
    apply (Hag j t i Hj Hi) in Hp as [H1 H2]. apply Bool.andb_true_iff. split; [now apply Bool.negb_true_iff, Z.eqb_neq|now apply Z.eqb_eq].
  - intros e H. destruct (forallb _ _); congruence.
Qed.

(** ** Virtual datasets *)
Section L.
Context (nm : string).
Let k := ("image." ++ nm)%string.
Context (HK : forall s n, is_module_of d name modules s n -> module_files d s k).
Lemma layout_filled : forall ly0 ly, (forall i c, ly_at ly0 i c = None) -> foldM (module_layout m k) ly0 (mx_modules m) = Ok ly ->
  forall j t i, nth_error sel j = Some t -> (i < F)%nat ->
  (forall s n v, is_module_of d name modules s n -> (ly_at ly (j * F + i) n = Some v <-> frame_value d s k t i v)) /\
  (forall n, (forall s, ~ is_module_of d name modules s n) -> ly_at ly (j * F + i) n = None).
Proof.
  intros ly0 ly H0 Hly j t i Hj Hi.
  assert (HN : NoDup (map snd (mx_modules m))) by (rewrite (mk_mods HM); exact (mk_nodup HM)).
  assert (Hs : forall sm t1 t2, In sm (mx_modules m) -> module_layout m k t1 sm = Ok t2 ->
     effA F sel (@ly_at V) (@Some V) (snd sm) (module_rows m (fst sm) k (fun f => map (fun v => v) (ds_rows (dds f (fst sm) k)))) t1 t2).
  { intros [s n] t1 t2 Hin H. apply (in_modules HM) in Hin. unfold module_layout in H. apply bind_ok in H as (chunks & Hc & H). cbn [fst snd] in *.
    apply (@module_effect V d name modules min m R K G HM s n Hin k (HK Hin) (image_index s nm) (layout V) (option V) V (@ly_at V) (@Some V) (fun f => map (fun v => v) (ds_rows (dds f s k)))
             (dataset V) (ch_dataset s k) (put_layout n)) with chunks; try assumption.
    - intros f _. now rewrite map_length.
    - intros c x Hcf Hx. rewrite (chunk_dataset R K HM Hin (HK Hin) (image_index s nm) Hcf) in Hx. injection Hx as <-. rewrite map_id. apply put_layout_works. }
  destruct (modules_effect Hs HN Hly Hj Hi) as [E1 E2].
  assert (Ht : In t sel) by (eapply nth_error_In; exact Hj). split.
  - intros s n v Hm. specialize (E1 (s, n) (proj2 (in_modules HM s n) Hm)). cbn [fst snd] in E1. rewrite H0 in E1. rewrite E1. clear E1.
    destruct (frame_at R K G HM Hm (HK Hm) (image_index s nm) (fun v => v) i Ht) as [X Y]. split.
    + intros H. destruct (nth_error _ i) as [w|] eqn:Ew in H; [|discriminate]. injection H as ->. apply Y in Ew as (v' & Hv & ->). exact Hv.
    + intros H. now rewrite (X v H).
  - intros n Hno. rewrite E2; [apply H0|]. intros Hin. apply in_map_iff in Hin as ([s n'] & E & Hin). cbn in E. subst n'. apply (in_modules HM) in Hin. exact (Hno s Hin).
Qed.
Lemma layout_item : forall ly0 ly, foldM (module_layout m k) ly0 (mx_modules m) = Ok ly -> ly_dtype ly = ly_dtype ly0 /\ ly_item ly = ly_item ly0.
Proof.
  assert (PL : forall modno (ds : dataset V) a b c (l l' : layout V), put_layout modno ds a b c l = Ok l' -> ly_dtype l' = ly_dtype l /\ ly_item l' = ly_item l).
  { intros modno ds a b c l l' H. unfold put_layout in H. destruct (_ <=? _)%Z; [discriminate|]. destruct (negb _) in H; [discriminate|]. injection H as <-. auto. }
  assert (MR : forall modno (ds : dataset V) pf pos fuel src tids (l l' : layout V), map_rows pf pos (put_layout modno ds) fuel src tids l = Ok l' -> ly_dtype l' = ly_dtype l /\ ly_item l' = ly_item l).
  { intros modno ds pf pos. induction fuel as [|fuel IH]; intros src tids l l' H; destruct tids as [|t0 tids]; cbn [map_rows] in H; try discriminate; try (injection H as <-; auto; fail).
    destruct (pos t0); [|discriminate]. destruct (negb _) in H; [discriminate|]. destruct (negb _) in H; [discriminate|]. apply bind_ok in H as (l1 & H1 & H).
    apply PL in H1 as [A1 A2]. apply IH in H as [B1 B2]. split; congruence. }
  assert (FC : forall s n chunks (l l' : layout V), foldM (fun tgt c => let* ds := ch_dataset s k c in map_chunk m (put_layout n ds) c tgt) l chunks = Ok l' -> ly_dtype l' = ly_dtype l /\ ly_item l' = ly_item l).
  { intros s n. induction chunks as [|c chunks IH]; intros l l' H; cbn [foldM] in H; [injection H as <-; auto|]. apply bind_ok in H as (l1 & H1 & H). apply bind_ok in H1 as (ds & _ & H1).
    apply MR in H1 as [A1 A2]. apply IH in H as [B1 B2]. split; congruence. }
  generalize (mx_modules m). induction l as [|[s n] l IH]; intros ly0 ly H; cbn [foldM] in H; [injection H as <-; auto|]. apply bind_ok in H as (l1 & H1 & H).
  unfold module_layout in H1. apply bind_ok in H1 as (chunks & _ & H1). apply FC in H1 as [A1 A2]. apply IH in H as [B1 B2]. split; congruence.
Qed.
Lemma layout_progress : forall ly0 e, z_prod (ly_item ly0) = e -> (forall s n, is_module_of d name modules s n -> entry_size d s k e) ->
  exists ly, foldM (module_layout m k) ly0 (mx_modules m) = Ok ly.
Proof.
  intros ly0 e He Hsz.
  destruct (@fold_progress (layout V) _ (module_layout m k) (fun l => z_prod (ly_item l) = e) (mx_modules m) ly0) as (ly & H & _); [|exact He|eauto].
  intros [s n] t1 Hin Hg. apply (in_modules HM) in Hin. unfold module_layout. cbn [fst snd].
  destruct (chunks_exist R K HM Hin (HK Hin) (image_index s nm)) as (chunks & Hc). rewrite Hc. cbn [bind].
  apply (@module_progress V d name modules min m R K HM s n Hin k (HK Hin) (image_index s nm) (layout V) (option V) V (@ly_at V) (@Some V) (fun f => ds_rows (dds f s k))
           (dataset V) (ch_dataset s k) (put_layout n)); try assumption.
  - intros f _. reflexivity.
  - intros c x Hcf Hx. rewrite (chunk_dataset R K HM Hin (HK Hin) (image_index s nm) Hcf) in Hx. injection Hx as <-. apply put_layout_works.
  - intros c Hcf. exists (dds (ch_file c) s k). split; [now apply (chunk_dataset R K HM Hin (HK Hin) (image_index s nm))|].
    apply put_layout_progress; [now apply H16 with s|]. apply source_files_In in Hcf as [Hf Hs]. destruct (mk_narrow HM) as (N1 & _).
    destruct (HK Hin (N1 _ Hf) Hs) as (_ & _ & g & ds & pds & _ & _ & Hds & _).
    assert (Hd' : dds (ch_file c) s k = ds) by (unfold dds, dset, fa_dataset; rewrite ds_path_inst, Hds; reflexivity). rewrite Hd'.
    exact (Hsz s n Hin (ch_file c) ds (N1 _ Hf) Hs Hds).
Qed.
End L.
End C.
