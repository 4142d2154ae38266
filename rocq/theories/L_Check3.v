(** Boolean checks of the conditions on detector files. *)
From Verif Require Import Base PyStr M_Files M_Machinery M_Reader M_Glob M_Select M_Components
  S_Reader S_Coll S_Glob S_Avail S_Series S_Stacking S_Components
  L_Base L_Machinery L_Reader L_GetArray L_Select L_Trains L_SelTrains L_Array2 L_Sel2 L_Hist L_Series L_Check L_Check2
  L_Components L_Components2 L_Components3 L_Components4 L_Components5 L_Components6 L_Components7.
Set Implicit Arguments. Unset Strict Implicit.
Local Open Scope string_scope.
Local Open Scope list_scope.

Section C.
Context {V : Type}.
Notation faccess := (faccess V).
Notation dcoll := (dcoll V).
Context (first : V -> V) (pulse : V -> Z).

Definition boundsb (g : ix_group) (n : nat) (r1 r2 : Z) : bool :=
  forallb (fun p => match nth_error (ix_first g) p, entry_count g p with
                    | Some a, Some c => ((a + c <=? r1) && (a + c <=? r2))%Z | _, _ => true end) (seq 0 n).
Definition module_fileb (f : faccess) (s k : string) : bool :=
  tids_okb (fa_file f) && sorted_ltb (fa_tids f) &&
  match dict_get (index_key false s k) (h5_index (fa_file f)), dict_get (data_key false s k) (h5_data (fa_file f)),
        dict_get (data_key false s (pulse_key k)) (h5_data (fa_file f)) with
  | Some g, Some ds, Some pds =>
      (L_Check.readableb g (List.length (fa_tids f)) && contigb g (List.length (fa_tids f))) && negb (z_in 0 (ds_item ds)) &&
      match ds_item pds with [] => true | [x] => (x =? 1)%Z | _ => false end &&
      boundsb g (List.length (fa_tids f)) (Z.of_nat (List.length (ds_rows ds))) (Z.of_nat (List.length (ds_rows pds))) &&
      forallb (fun r => (0 <=? pulse r)%Z && (pulse r <? MAX_PULSES)%Z) (ds_rows pds) && (Z.of_nat (List.length (ds_rows pds)) <=? MAX_PULSES)%Z
  | _, _, _ => false
  end.
Lemma module_fileb_ok : forall f s k, module_fileb f s k = true -> module_file f s k /\
  Forall (fun r => 0 <= pulse r < MAX_PULSES)%Z (ds_rows (dpds f s k)) /\ (Z.of_nat (List.length (ds_rows (dpds f s k))) <= MAX_PULSES)%Z.
Proof.
  intros f s k H. unfold module_fileb in H. apply andb_true_iff in H as [H H3]. apply andb_true_iff in H as [H1 H2].
  destruct (dict_get (index_key false s k) _) as [g|] eqn:Eg; [|discriminate].
  destruct (dict_get (data_key false s k) _) as [ds|] eqn:Ed; [|discriminate].
  destruct (dict_get (data_key false s (pulse_key k)) _) as [pds|] eqn:Ep; [|discriminate].
  apply andb_true_iff in H3 as [H3 L]. apply andb_true_iff in H3 as [H3 P]. apply andb_true_iff in H3 as [H3 B]. apply andb_true_iff in H3 as [H3 I].
  apply andb_true_iff in H3 as [H3 Z0].
  assert (Epd : dpds f s k = pds).
  { unfold dpds, dset, fa_dataset. rewrite pulse_path, Ep. reflexivity. }
  split; [|rewrite Epd; split].
  - split; [now apply tids_okb_ok|]. split; [now apply sorted_ltb_ok|]. exists g, ds, pds.
    split; [assumption|]. split; [now apply contigb_ok|]. split; [assumption|]. split.
    { intros X. apply z_in_iff in X. now rewrite X in Z0. }
    split; [assumption|]. split.
    { destruct (ds_item pds) as [|x [|? ?]]; [auto| |discriminate]. right. apply Z.eqb_eq in I. now subst. }
    intros p a c Hp Ha Hc. unfold boundsb in B. rewrite forallb_forall in B. specialize (B p (proj2 (in_seq _ _ _) (conj (Nat.le_0_l _) Hp))). rewrite Ha, Hc in B. lia.
  - rewrite Forall_forall. rewrite forallb_forall in P. intros r Hr. specialize (P r Hr). lia.
  - lia.
Qed.
Definition good_modulesb (d : dcoll) (m : mpx V) (modules : option (list Z)) (k : string) : bool :=
  forallb (fun p => forallb (fun f => negb (str_in (fst p) (fa_sources f)) || module_fileb f (fst p) k) (dc_files d)) (module_list d (mx_name m) modules).
Lemma good_modulesb_ok : forall d m modules k, reachable d -> good_modulesb d m modules k = true -> good_modules first pulse d m modules k.
Proof.
  intros d m modules k R H s n Hm. unfold good_modulesb in H. rewrite forallb_forall in H. apply module_list_In in Hm. specialize (H _ Hm). cbn [fst] in H.
  rewrite forallb_forall in H.
  assert (X : forall f, In f (dc_files d) -> In s (fa_sources f) -> module_fileb f s k = true).
  { intros f Hf Hs. specialize (H f Hf). apply str_in_iff in Hs. now rewrite Hs in H. }
  split.
  - intros f Hf Hs. now apply module_fileb_ok, X.
  - intros f t pulses rows (Hf & Hs & Ht) Htr. destruct (module_fileb_ok (X f Hf Hs)) as (M & P & L).
    destruct (reachable_inv R) as [_ Ho]. rewrite Forall_forall in Ho.
    destruct (train_entry (Ho f Hf) M Ht Htr) as (e & _ & _ & -> & _ & _).
    assert (Inc : forall x, In x (zslice (drows pulse f s k) (e_first e) (e_first e + e_count e)) -> In x (drows pulse f s k)).
    { intros x Hx. unfold zslice in Hx. rewrite <- (firstn_skipn (Z.to_nat (e_first e)) (drows pulse f s k)). apply in_or_app. right.
      rewrite <- (firstn_skipn (Z.to_nat (e_first e + e_count e - e_first e)) (skipn _ _)). apply in_or_app. now left. }
    split.
    + rewrite Forall_forall. intros p Hp. apply in_map_iff in Hp as ([p' v] & <- & Hp). apply Inc in Hp. apply in_combine_l in Hp.
      apply in_map_iff in Hp as (r & <- & Hr). rewrite Forall_forall in P. apply (P r Hr).
    + rewrite map_length. unfold zslice. rewrite firstn_length, skipn_length. unfold drows. rewrite combine_length, map_length. lia.
Qed.
Definition plainb (s : string) : bool := forallb (fun c => negb (Ascii.eqb c "*" || Ascii.eqb c "?" || Ascii.eqb c "[")) (list_ascii_of_string s).
Definition countableb (d : dcoll) (name : string) (modules : option (list Z)) : bool :=
  forallb (fun p => plainb (fst p) &&
    match source_files (dc_files d) (fst p) with f :: _ => match fa_get_keys f (fst p) with Ok ks => str_in "image.data" ks | Err _ => false end | [] => false end &&
    forallb (fun f => negb (str_in (fst p) (fa_sources f)) ||
      (negb (Nat.eqb (List.length (fa_tids f)) 0) && match dict_get (index_key false (fst p) "image.data") (h5_index (fa_file f)) with Some g => L_Check.readableb g (List.length (fa_tids f)) | None => false end)) (dc_files d))
   (module_list d name modules).
Lemma countableb_ok : forall d name modules, countableb d name modules = true -> countable d name modules.
Proof.
  intros d name modules H s n Hm. unfold countableb in H. rewrite forallb_forall in H. apply module_list_In in Hm. specialize (H _ Hm). cbn [fst] in H.
  apply andb_true_iff in H as [H H3]. apply andb_true_iff in H as [H1 H2]. split; [|split].
  - intros c Hc. unfold plainb in H1. rewrite forallb_forall in H1. specialize (H1 c Hc). apply negb_true_iff in H1. apply orb_false_iff in H1 as [H1 H1c]. apply orb_false_iff in H1 as [H1a H1b].
    apply Ascii.eqb_neq in H1a, H1b, H1c. auto.
  - apply stored_key_iff. destruct (source_files (dc_files d) s) as [|f r]; [discriminate|]. destruct (fa_get_keys f s) as [ks|] eqn:E; [|discriminate].
    apply str_in_iff in H2. exists f, r, ks. auto.
  - intros f Hf Hs. rewrite forallb_forall in H3. specialize (H3 f Hf). apply str_in_iff in Hs. rewrite Hs in H3. simpl in H3.
    apply andb_true_iff in H3 as [H3 H4]. split; [intros E; rewrite E in H3; discriminate|].
    destruct (dict_get _ _) as [g|]; [|discriminate]. exists g. split; [reflexivity|]. now apply L_Check.readableb_ok.
Qed.
End C.
