(** The grid of a detector module. *)
From Verif Require Import Base PyStr M_Files M_Machinery M_Reader M_Glob M_Select M_Series M_Stacking M_Components M_Grid
  S_Reader S_Coll S_Glob S_Select S_Avail S_Series S_Stacking S_Components
  L_Base L_Machinery L_Reader L_Trains L_GetArray L_Select L_SelTrains L_Array2 L_Series
  L_Components L_Components2 L_Components3 L_Components4 L_Components5 L_Components6 L_Components7 L_Components8 L_Grid.
Set Implicit Arguments. Unset Strict Implicit.
Local Open Scope string_scope.
Local Open Scope list_scope.

Lemma join_axis_err : forall l e, join_axis l = Err e -> e = EValueError.
Proof.
  intros [|a l] e H; [discriminate|]. unfold join_axis in H. destruct (forallb (zlist_eqb a) l); [discriminate|].
  destruct (forallb z_unique (a :: l)); [discriminate|]. congruence.
Qed.

Section C.
Context {V : Type}.
Notation faccess := (faccess V).
Notation dcoll := (dcoll V).
Context (first : V -> V) (pulse : V -> Z).

Lemma concat_grids_err : forall (parts : list (arr V)) e, concat_trains parts = Err e -> concat_grids (map (@unstack V) parts) = Err e.
Proof.
  intros parts e H. unfold concat_trains, concat_grids in *.
  assert (Ef : filter grid_nonempty (map (@unstack V) parts) = map (@unstack V) (filter (@arr_nonempty V) parts)).
  { clear. induction parts as [|a l IH]; [reflexivity|]. simpl. rewrite unstack_nonempty, IH. destruct (arr_nonempty a); reflexivity. }
  rewrite Ef. destruct (filter (@arr_nonempty V) parts) as [|a r].
  - destruct parts; [injection H as <-; reflexivity|discriminate].
  - cbn [map]. assert (Ei : forallb (fun b : grid V => zlist_eqb (gr_item (unstack a)) (gr_item b)) (map (@unstack V) r) =
                 forallb (fun b => zlist_eqb (ar_item a) (ar_item b)) r).
    { clear. induction r as [|b r IH]; [reflexivity|]. cbn [map forallb]. now rewrite IH. }
    rewrite Ei. destruct (forallb _ r); [discriminate|]. injection H as <-. destruct (join_axis _) eqn:E; [reflexivity|].
    apply join_axis_err in E. now subst.
Qed.

Section D.
Context (m : mpx V) (s k : string) (ps : psel).
Let fs := source_files (dc_files (mx_data m)) s.
Context (Hdata : forall f, In f fs -> has_data f s k) (Hz : forall f, In f fs -> ~ In 0%Z (ds_item (dds f s k))).
Context (HD : Forall (fun z => 0 <= z)%Z (desired (ps_val ps))).
Context (Hruns : Forall (fun c => exists a b, is_run c a b) (mx_chunks m)).
Context (HNf : NoDup (flat_map (@fa_tids V) fs)) (HNt : NoDup (List.concat (mx_chunks m))).
Notation part_list := (part_list m s k).
Notation part_arr := (part_arr first pulse s k ps).

Lemma parts_eq : forall l, mapM (file_parts first pulse m s k ps) fs = Ok l ->
  (forall f c, In f fs -> In c (mx_chunks m) -> gapless f c /\
     (meets f s k c = true -> part_ok ps (dds f s k) (drows pulse f s k) (in_chunk f s k c))) /\
  List.concat l = map part_arr part_list.
Proof.
  intros l H. apply mapM_ok_iff in H.
  assert (L : forall fs' : list faccess, List.concat (map (fun f => map (chunk_arr first pulse s k ps f) (filter (meets f s k) (mx_chunks m))) fs') =
    map part_arr (flat_map (fun f => map (pair f) (filter (meets f s k) (mx_chunks m))) fs')).
  { intros fs'. rewrite <- flat_map_concat_map, map_flat_map. apply flat_map_ext_in. intros f _. rewrite map_map. reflexivity. }
  assert (X : (forall f c, In f fs -> In c (mx_chunks m) -> gapless f c /\
        (meets f s k c = true -> part_ok ps (dds f s k) (drows pulse f s k) (in_chunk f s k c))) /\
        l = map (fun f => map (chunk_arr first pulse s k ps f) (filter (meets f s k) (mx_chunks m))) fs).
  { assert (Hin : incl fs fs) by apply incl_refl. clear HNf. revert Hin H. generalize fs at 1 3 4 5 as fs'. intros fs' Hin H. revert Hin.
    induction H as [|f y fs' l Hf H IH]; intros Hin; [split; [intros ? ? []|reflexivity]|].
    destruct IH as [I1 I2]; [intros x Hx; apply Hin; now right|].
    apply file_parts_spec in Hf as [Hf ->]; [|apply Hdata, Hin; now left|assumption|assumption]. split.
    - intros f' c [<-|Hf'] Hc; auto.
    - simpl. now rewrite I2. }
  destruct X as [X1 X2]. split; [exact X1|]. unfold L_Components4.part_list. fold fs. rewrite <- L, <- X2. reflexivity.
Qed.

Lemma part_in : forall fc, In fc part_list -> In (fst fc) fs /\ In (snd fc) (mx_chunks m) /\ meets (fst fc) s k (snd fc) = true.
Proof. intros fc H. apply in_flat_map in H as (f & Hf & H). apply in_map_iff in H as (c & <- & Hc). apply filter_In in Hc. simpl. tauto. Qed.
Lemma part_trains : forall fc t, In fc part_list -> In t (map (@frame_train V) (ar_frames (part_arr fc))) -> In t (snd fc) /\ In t (fa_tids (fst fc)).
Proof.
  intros [f c] t Hfc Ht. destruct (part_in Hfc) as (Hf & Hc & _). simpl in *.
  apply in_map_iff in Ht as ([[t' p] v] & E & Hx). unfold frame_train in E. simpl in E. subst t'.
  assert (Hne : frames_at t (part_arr (f, c)) <> []).
  { intros E. assert (X : In (t, p, v) (frames_at t (part_arr (f, c)))) by (apply filter_In; simpl; rewrite Z.eqb_refl; auto). rewrite E in X. exact X. }
  unfold L_Components4.part_arr in Hne. simpl in Hne.
  rewrite (@part_frames V first pulse m s k ps f c t Hf) in Hne. destruct (z_in t c) eqn:Et; [|congruence]. apply z_in_iff in Et. split; [assumption|].
  rewrite <- (ents_fst (proj2 (@Hdata f Hf))). destruct (in_dec Z.eq_dec t (map fst (ents f s k))) as [|Hni]; [assumption|].
  exfalso. apply Hne. rewrite flat_map_nil; [reflexivity|]. intros e He. destruct (Z.eqb_spec (fst e) t); [|reflexivity].
  exfalso. apply Hni. subst t. now apply in_map.
Qed.

Lemma module_grid_spec :
  match get_module_pulse_data first pulse m s k ps with
  | Ok a => exists g, get_module_grid first pulse m s k ps = Ok g /\ gr_item g = ar_item a /\
              grid_holds g (fun t p v => In (t, p, v) (ar_frames a))
  | Err e => get_module_grid first pulse m s k ps = Err e
  end.
Proof.
  unfold get_module_pulse_data, get_module_grid. fold fs. destruct (mapM (file_parts first pulse m s k ps) fs) as [l|e] eqn:El; [|reflexivity].
  cbn [bind]. destruct (parts_eq El) as [Hall Hl]. rewrite Hl. destruct (concat_trains (map part_arr part_list)) as [a|e] eqn:Ea; [|now apply concat_grids_err].
  assert (S := @concat_grids_spec V (map part_arr part_list)). rewrite Ea in S. apply S; clear S.
  - apply Forall_map, Forall_forall. intros [f c] Hfc. destruct (part_in Hfc) as (Hf & Hc & Hm). simpl in *.
    destruct (proj2 (Hall f c Hf Hc) Hm) as (_ & N & _). unfold L_Components4.part_arr, chunk_arr, part. cbn [ar_frames fst snd]. rewrite map_map. exact N.
  - apply Forall_map, Forall_forall. intros fc Hfc. destruct (part_in Hfc) as [Hf _]. unfold L_Components4.part_arr, chunk_arr, part. cbn [ar_item].
    intros H0. apply (@Hz _ Hf). unfold frame_shape in H0. destruct (ds_item (dds (fst fc) s k)) as [|[|[p|p|]|p] r]; try exact H0.
    now right.
  - apply ForallOrdPairs_map.
    assert (HNfs : NoDup fs).
    { eapply NoDup_flat_map_nonempty; [exact HNf|]. intros f Hf. exact (proj1 (@Hdata f Hf)). }
    assert (HNcs : NoDup (mx_chunks m)).
    { apply (@NoDup_flat_map_nonempty _ _ (fun c : list Z => c)); [rewrite flat_map_concat_map, map_id; exact HNt|].
      intros c Hc E. rewrite Forall_forall in Hruns. destruct (Hruns c Hc) as (x & y & _ & H & _). subst. discriminate. }
    assert (Hpl : NoDup part_list).
    { apply NoDup_pairs; [assumption|]. intros f _. now apply NoDup_filter. }
    assert (Hsame : forall f g t, In f fs -> In g fs -> In t (fa_tids f) -> In t (fa_tids g) -> f = g).
    { intros f g t Hf Hg H1 H2. exact (@flat_unique _ (@fa_tids V) fs f g t HNf Hf Hg H1 H2). }
    assert (Hsamec : forall c c' t, In c (mx_chunks m) -> In c' (mx_chunks m) -> In t c -> In t c' -> c = c').
    { intros c c' t Hc Hc' H1 H2. apply (@flat_unique _ (fun c : list Z => c) (mx_chunks m) c c' t); assumption. }
    assert (Hap : forall x y, In x part_list -> In y part_list -> x <> y -> apart (part_arr x) (part_arr y)).
    { intros [f c] [f' c'] Hx Hy Hne. assert (Tx := fun t => @part_trains (f, c) t Hx). assert (Ty := fun t => @part_trains (f', c') t Hy).
      destruct (part_in Hx) as (F1 & C1 & _). destruct (part_in Hy) as (F2 & C2 & _). cbn [fst snd] in *.
      rewrite Forall_forall in Hruns. destruct (Hruns c C1) as (a1 & b1 & Hab & _ & _ & _ & I1). destruct (Hruns c' C2) as (a2 & b2 & Hab' & _ & _ & _ & I2).
      destruct (list_eq_dec Z.eq_dec c c') as [Ec|Ec].
      - subst c'. assert (Hff : forall t, In t (fa_tids f) -> In t (fa_tids f') -> False).
        { intros t H1 H2. apply Hne. f_equal. eapply Hsame; eassumption. }
        destruct (map (@frame_train V) (ar_frames (part_arr (f, c)))) as [|t0 r] eqn:E0; [left; intros t t' H; rewrite E0 in H; destruct H|].
        destruct (map (@frame_train V) (ar_frames (part_arr (f', c)))) as [|t0' r'] eqn:E0'; [left; intros t t' _ H; rewrite E0' in H; destruct H|].
        destruct (Tx t0 (or_introl eq_refl)) as [A1 A2]. destruct (Ty t0' (or_introl eq_refl)) as [B1 B2].
        destruct (Hall f c F1 C1) as [G1 _]. destruct (Hall f' c F2 C2) as [G2 _].
        destruct (Z.lt_trichotomy t0 t0') as [Hlt|[->|Hlt]]; [left|exfalso; eauto|right]; intros u w Hu Hw.
        + rewrite E0 in Hu. rewrite E0' in Hw. destruct (Tx u Hu) as [U1 U2]. destruct (Ty w Hw) as [W1 W2].
          destruct (Z.lt_trichotomy u w) as [H|[->|H]]; [assumption|exfalso; eauto|exfalso].
          destruct (Z.lt_ge_cases w t0) as [Q|Q].
          * apply (Hff t0 A2). apply (G2 t0 w t0'); auto; lia.
          * apply (Hff w); [|assumption]. apply (G1 w t0 u); auto; lia.
        + rewrite E0' in Hu. rewrite E0 in Hw. destruct (Ty u Hu) as [U1 U2]. destruct (Tx w Hw) as [W1 W2].
          destruct (Z.lt_trichotomy u w) as [H|[->|H]]; [assumption|exfalso; eauto|exfalso].
          destruct (Z.lt_ge_cases w t0') as [Q|Q].
          * apply (Hff t0'); [|assumption]. apply (G1 t0' w t0); auto; lia.
          * apply (Hff w W2). apply (G2 w t0' u); auto; lia.
      - assert (Hd : (b1 < a2 \/ b2 < a1)%Z).
        { destruct (Z.lt_ge_cases b1 a2); [auto|]. destruct (Z.lt_ge_cases b2 a1); [auto|]. exfalso. apply Ec.
          apply (Hsamec c c' (Z.max a1 a2)); try assumption; [apply I1|apply I2]; lia. }
        destruct Hd as [Hd|Hd]; [left|right]; intros u w Hu Hw.
        + apply Tx in Hu as [Hu _]. apply Ty in Hw as [Hw _]. apply I1 in Hu. apply I2 in Hw. lia.
        + apply Ty in Hu as [Hu _]. apply Tx in Hw as [Hw _]. apply I2 in Hu. apply I1 in Hw. lia. }
    clear -Hpl Hap. induction Hpl as [|x l Hx Hl IH]; [constructor|]. constructor.
    + apply Forall_forall. intros y Hy. apply Hap; [now left|now right|]. intros ->. contradiction.
    + apply IH. intros u w Hu Hw. apply Hap; now right.
Qed.
End D.
End C.
