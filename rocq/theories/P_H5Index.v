(** C84: the CSV listing of the datasets in a file. *)
From Verif Require Import Base PyStr M_Cxi M_Crystfel M_Repr M_H5Index S_Info S_H5Index L_Base L_Info L_H5Index L_H5Index2.
Local Open Scope string_scope.
Local Open Scope list_scope.

(** The listing never fails; read as CSV it has a header and one row per dataset, in strictly ascending order of the
    paths: each row is a dataset of the file with its shape and type, and each dataset is in exactly one row. *)
Theorem C84_listing : forall g, g <> [] -> well_formed g -> exists text rows, hdf5_datasets g = Ok text /\
  csv_read text = ["path"; "shape"; "dtype"] :: map (fun r => [fst r; shape_text (fst (snd r)); snd (snd r)]) rows /\
  StronglySorted name_lt (map fst rows) /\
  (forall p sh dt, In (p, (sh, dt)) rows -> exists o, leads g p o /\ nth_error g o = Some (ODataset sh dt)) /\
  (forall p o sh dt, leads g p o -> nth_error g o = Some (ODataset sh dt) ->
     exists p', leads g p' o /\ In (p', (sh, dt)) rows /\ forall q, leads g q o -> In q (map fst rows) -> q = p').
Proof.
  intros g NE WF. destruct (visititems_ok WF NE) as (out & E & N & N0 & L & C). unfold hdf5_datasets. rewrite E. cbn [bind].
  set (all := flat_map (fun po => match nth_error g (snd po) with Some (ODataset sh dt) => [(fst po, (sh, dt))] | _ => [] end) out).
  set (rows := isort (fun a b : string * (option (list Z) * string) => String.leb (fst a) (fst b)) all).
  assert (HA : forall p sh dt, In (p, (sh, dt)) all <-> exists o, In (p, o) out /\ nth_error g o = Some (ODataset sh dt)).
  { intros p sh dt. unfold all. rewrite in_flat_map. split.
    - intros ([p' o] & H & H'). cbn [fst snd] in H'. destruct (nth_error g o) as [[|sh' dt'|]|] eqn:EO; try contradiction. destruct H' as [H'|[]]. injection H' as <- <- <-. eauto.
    - intros (o & H & EO). exists (p, o). split; [exact H|]. cbn [fst snd]. rewrite EO. now left. }
  assert (HP : forall x, In x rows <-> In x all) by (intros x; split; apply Permutation_in; [symmetry|]; apply isort_perm).
  assert (ND : NoDup (map fst all)).
  { assert (NP : NoDup (map fst out)).
    { clear - N L WF. induction out as [|[p o] out IH]; [constructor|]. cbn in *. inversion N as [|? ? N1 N2]; subst. constructor; [|apply IH; [exact N2|intros; apply L; now right]].
      intros H. apply in_map_iff in H. destruct H as ([p' o'] & Hp & H). cbn in Hp. subst p'. assert (o = o') by (eapply leads_fun; [exact WF|apply L; now left|apply L; now right]). subst o'.
      apply N1. apply in_map_iff. exists (p, o). auto. }
    clear - NP. unfold all. induction out as [|[p o] out IH]; [constructor|]. cbn in NP. inversion NP as [|? ? N1 N2]; subst. cbn [flat_map fst snd]. rewrite map_app.
    assert (SUB : forall x, In x (map fst (flat_map (fun po : string * nat => match nth_error g (snd po) with Some (ODataset sh dt) => [(fst po, (sh, dt))] | _ => [] end) out)) -> In x (map fst out)).
    { intros x H. apply in_map_iff in H. destruct H as (y & <- & H). apply in_flat_map in H. destruct H as ([p' o'] & H & H'). cbn [fst snd] in H'.
      destruct (nth_error g o') as [[|sh dt|]|]; try contradiction. destruct H' as [<-|[]]. apply in_map_iff. exists (p', o'). auto. }
    destruct (nth_error g o) as [[|sh dt|]|]; cbn [map app fst]; try (apply IH; exact N2). constructor; [|apply IH; exact N2]. intros H. apply N1. apply SUB. exact H. }
  eexists. exists rows. split; [reflexivity|]. split; [|split; [|split]].
  - unfold csv_read. rewrite concat_cons. rewrite (@read_row "path" ["shape"; "dtype"] [] _) by discriminate.
    rewrite (@read_rows _ (fun r : string * (option (list Z) * string) => (fst r, [shape_text (fst (snd r)); snd (snd r)])) rows); [reflexivity|]. intros; discriminate.
  - apply sorted_strict.
    + unfold rows. assert (S : StronglySorted (fun a b : string * (option (list Z) * string) => name_le (fst a) (fst b)) (isort (fun a b => String.leb (fst a) (fst b)) all)).
      { apply Sorted_StronglySorted; [intros a b c; apply name_le_trans|]. apply isort_Sorted. intros a b. apply String.leb_total. }
      clear - S. induction S as [|a l _ IH F]; [constructor|]. cbn. constructor; [exact IH|]. rewrite Forall_forall in *. intros x Hx. apply in_map_iff in Hx. destruct Hx as (y & <- & Hy). auto.
    + eapply Permutation_NoDup; [|exact ND]. apply Permutation_map. apply isort_perm.
  - intros p sh dt H. apply HP, HA in H. destruct H as (o & H & EO). eauto.
  - intros p o sh dt H EO. destruct (C p o H) as [->|(p' & Hp')].
    + exfalso. assert (R : exists ms, nth_error g 0 = Some (OGroup ms)) by (clear - H; remember 0%nat as z eqn:Z in H; clear Z; induction H; eauto). destruct R as (ms & R). congruence.
    + exists p'. split; [auto|]. split; [apply HP, HA; eauto|]. intros q Hq Hin. apply in_map_iff in Hin. destruct Hin as ([q' [sh' dt']] & Eq & Hin). cbn in Eq. subst q'. apply HP, HA in Hin. destruct Hin as (o' & Hin & EO').
      assert (o' = o) by (eapply leads_fun; [exact WF|apply L; exact Hin|exact Hq]). subst o'. clear - N Hin Hp'. induction out as [|[x y] out IH]; [contradiction|]. cbn in N. inversion N as [|? ? N1 N2]; subst.
      destruct Hin as [Hin|Hin], Hp' as [Hp'|Hp'].
      * congruence.
      * injection Hin as -> ->. exfalso. apply N1. apply in_map_iff. exists (p', o). auto.
      * injection Hp' as -> ->. exfalso. apply N1. apply in_map_iff. exists (q, o). auto.
      * auto.
Qed.
Print Assumptions C84_listing.

(** The text of a shape: brackets, sizes with commas; different shapes have different texts. *)
Theorem C84_shapes : forall s s', shape_text s = shape_text s' -> s = s'.
Proof. intros s s'. exact (@shape_text_inj s s'). Qed.
Print Assumptions C84_shapes.

(** Files in which each object has one path: the listing tells the paths, shapes and types of all datasets, and two files
    with the same listing do not differ in these. *)
Definition one_path (g : h5graph) : Prop := forall p q o, leads g p o -> leads g q o -> p = q.
Theorem C84_unambiguous : forall g g' text, g <> [] -> well_formed g -> one_path g -> g' <> [] -> well_formed g' -> one_path g' ->
  hdf5_datasets g = Ok text -> hdf5_datasets g' = Ok text ->
  forall p sh dt, (exists o, leads g p o /\ nth_error g o = Some (ODataset sh dt)) <-> (exists o, leads g' p o /\ nth_error g' o = Some (ODataset sh dt)).
Proof.
  assert (K : forall g g' text, g <> [] -> well_formed g -> one_path g -> g' <> [] -> well_formed g' -> hdf5_datasets g = Ok text -> hdf5_datasets g' = Ok text ->
    forall p sh dt, (exists o, leads g p o /\ nth_error g o = Some (ODataset sh dt)) -> exists o, leads g' p o /\ nth_error g' o = Some (ODataset sh dt)).
  { intros g g' text NE WF O NE' WF' E E' p sh dt (o & Ho & EO).
    destruct (C84_listing g NE WF) as (t1 & r1 & E1 & R1 & _ & _ & C1). destruct (C84_listing g' NE' WF') as (t2 & r2 & E2 & R2 & _ & D2 & _).
    rewrite E in E1. injection E1 as <-. rewrite E' in E2. injection E2 as <-. rewrite R1 in R2. injection R2 as R2.
    destruct (C1 p o sh dt Ho EO) as (p' & Hp' & Hin & _). rewrite (O p' p o Hp' Ho) in Hin.
    assert (H : In [p; shape_text sh; dt] (map (fun r : string * (option (list Z) * string) => [fst r; shape_text (fst (snd r)); snd (snd r)]) r2)).
    { rewrite <- R2. apply in_map_iff. exists (p, (sh, dt)). auto. }
    apply in_map_iff in H. destruct H as ([p2 [sh2 dt2]] & H & Hin2). cbn [fst snd] in H. injection H as -> Hs ->. apply shape_text_inj in Hs. subst sh2. eauto. }
  intros g g' text NE WF O NE' WF' O' E E' p sh dt. split; [eapply K|eapply (K g' g)]; eassumption.
Qed.
Print Assumptions C84_unambiguous.

(** A dataset with two names is listed under one of them only; datasets behind soft links are not listed. *)
Theorem C84_all_names_refuted : exists g text, well_formed g /\ g <> [] /\ hdf5_datasets g = Ok text /\
  leads g "a" 1 /\ leads g "b" 1 /\ nth_error g 1 = Some (ODataset (Some [3]%Z) "<f4") /\ csv_read text = [["path"; "shape"; "dtype"]; ["a"; "(3,)"; "<f4"]].
Proof.
  exists [OGroup [("a", Hard 1); ("b", Hard 1); ("c", Soft)]; ODataset (Some [3]%Z) "<f4"]. eexists. split; [|split; [discriminate|split; [reflexivity|split; [|split; [|split; [reflexivity|vm_compute; reflexivity]]]]]].
  - intros [|[|[|o]]] ms H; try discriminate. injection H as <-. split; [repeat constructor; cbn; intuition discriminate|]. split.
    + intros n l [H|[H|[H|[]]]]; injection H as <- <-; (split; [discriminate|]); cbn; intuition discriminate.
    + intros n c [H|[H|[H|[]]]]; [| |discriminate]; injection H as <- <-; cbn; lia.
  - eapply leads_first; [reflexivity|]. now left.
  - eapply leads_first; [reflexivity|]. right. now left.
Qed.
Print Assumptions C84_all_names_refuted.

(** A small file, with a group, a type, a loop, a scalar, an empty dataset and a name with a comma and a quote. *)
Definition small : h5graph :=
  [OGroup [("INDEX", Hard 1); ("t,""x""", Hard 3); ("null", Hard 4); ("type", Hard 5)];
   OGroup [("trainId", Hard 2); ("back", Hard 0)]; ODataset (Some [5; 2]%Z) "<u8"; ODataset (Some []) "|S3"; ODataset None "<f8"; OType].
Example C84_example : small <> [] /\ well_formed small /\ exists text, hdf5_datasets small = Ok text /\
  csv_read text = [["path"; "shape"; "dtype"]; ["INDEX/trainId"; "(5, 2)"; "<u8"]; ["null"; ""; "<f8"]; ["t,""x"""; "()"; "|S3"]].
Proof.
  split; [discriminate|]. split.
  - intros [|[|[|[|[|[|o]]]]]] ms H; try discriminate; [| |destruct o; discriminate]; injection H as <-; (split; [repeat constructor; cbn; intuition discriminate|]); split.
    + intros n l [H|[H|[H|[H|[]]]]]; injection H as <- <-; (split; [discriminate|]); cbn; intuition discriminate.
    + intros n c [H|[H|[H|[H|[]]]]]; injection H as <- <-; cbn; lia.
    + intros n l [H|[H|[]]]; injection H as <- <-; (split; [discriminate|]); cbn; intuition discriminate.
    + intros n c [H|[H|[]]]; injection H as <- <-; cbn; lia.
  - eexists. split; [reflexivity|]. vm_compute. reflexivity.
Qed.
