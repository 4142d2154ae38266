(** Reading one chunk of trains of a detector module. *)
From Verif Require Import Base PyStr M_Files M_Machinery M_Reader M_Components S_Reader S_Coll S_Series S_Components
  L_Base L_Reader L_GetArray L_Trains L_Array2 L_SelTrains L_Components.
Set Implicit Arguments. Unset Strict Implicit.
Local Open Scope list_scope.

Lemma combine_maps : forall A B C (f : A -> B) (g : A -> C) l, combine (map f l) (map g l) = map (fun x => (f x, g x)) l.
Proof. intros A B C f g; induction l as [|x l IH]; simpl; [reflexivity|]. now rewrite IH. Qed.
Lemma combine_firstn : forall A B n (a : list A) (b : list B), combine (firstn n a) (firstn n b) = firstn n (combine a b).
Proof. intros A B; induction n as [|n IH]; intros [|x a] [|y b]; simpl; try reflexivity. now rewrite IH. Qed.
Lemma combine_skipn : forall A B n (a : list A) (b : list B), combine (skipn n a) (skipn n b) = skipn n (combine a b).
Proof.
  intros A B; induction n as [|n IH]; intros [|x a] [|y b]; simpl; try reflexivity; [|apply IH].
  now destruct (skipn n a).
Qed.
Lemma zslice_combine : forall A B (a : list A) (b : list B) i j, combine (zslice a i j) (zslice b i j) = zslice (combine a b) i j.
Proof. intros; unfold zslice. now rewrite combine_firstn, combine_skipn. Qed.
Lemma map_fst_combine : forall A B (a : list A) (b : list B), List.length a = List.length b -> map fst (combine a b) = a.
Proof. intros A B; induction a as [|x a IH]; intros [|y b] H; simpl in *; try discriminate; [reflexivity|]. now rewrite IH by lia. Qed.
Lemma map_snd_combine : forall A B (a : list A) (b : list B), List.length a = List.length b -> map snd (combine a b) = b.
Proof. intros A B; induction a as [|x a IH]; intros [|y b] H; simpl in *; try discriminate; [reflexivity|]. now rewrite IH by lia. Qed.
Lemma map_combine_r : forall A B C (f : B -> C) (a : list A) b,
  map (fun x => (fst x, f (snd x))) (combine a b) = combine a (map f b).
Proof. intros A B C f; induction a as [|x a IH]; intros [|y b]; simpl; try reflexivity. now rewrite IH. Qed.

Section E.
Context {W : Type}.

(** Rows of the entries of a contiguous list, by position. *)
Lemma entry_rows_length : forall (rows : list W) e, (0 <= e_first e)%Z -> (0 <= e_count e)%Z ->
  (e_first e + e_count e <= Z.of_nat (List.length rows))%Z ->
  Z.of_nat (List.length (entry_rows rows e)) = e_count e.
Proof. intros rows e H1 H2 H3. unfold entry_rows. rewrite map_length. apply zslice_length; assumption. Qed.

Lemma contig_tail : forall e E, contig (e :: E) -> contig E.
Proof. intros e E H i x y Hx Hy. exact (H (S i) x y Hx Hy). Qed.

Lemma entry_position : forall (rows : list W) E a e j, contig E -> nonneg_entries E ->
  match E with e :: _ => e_first e = a | [] => True end ->
  Forall (fun e => e_first e + e_count e <= Z.of_nat (List.length rows))%Z E ->
  In e E -> (0 <= j < e_count e)%Z ->
  (0 <= e_first e - a)%Z /\
  nth_error (flat_map (entry_rows rows) E) (Z.to_nat (e_first e - a + j)) = nth_error (entry_rows rows e) (Z.to_nat j).
Proof.
  intros rows; induction E as [|e0 E IH]; intros a e j Hc Hn Ha Hb He Hj; [destruct He|]. simpl in Ha.
  inversion Hn as [|? ? [N1 N2] Hn']; subst. inversion Hb as [|? ? B1 Hb']; subst.
  assert (L0 := entry_rows_length N1 N2 B1). simpl flat_map. destruct He as [->|He].
  - split; [lia|]. rewrite nth_error_app1 by lia. f_equal. lia.
  - set (a' := match E with e1 :: _ => e_first e1 | [] => 0%Z end).
    assert (Ha' : match E with e :: _ => e_first e = a' | [] => True end) by (subst a'; destruct E; auto).
    destruct (IH a' e j (contig_tail Hc) Hn' Ha' Hb' He Hj) as [G1 G2].
    assert (a' = e_first e0 + e_count e0)%Z.
    { subst a'. destruct E as [|e1 E]; [destruct He|]. exact (Hc 0%nat e0 e1 eq_refl eq_refl). }
    split; [lia|]. rewrite nth_error_app2 by lia. rewrite <- G2. f_equal. lia.
Qed.

Lemma chunk_rows_fit : forall (rows : list W) E e0 , contig (e0 :: E) -> nonneg_entries (e0 :: E) ->
  Forall (fun e => e_first e + e_count e <= Z.of_nat (List.length rows))%Z (e0 :: E) ->
  (e_first e0 + zsum (map e_count (e0 :: E)) <= Z.of_nat (List.length rows))%Z.
Proof.
  intros rows E e0 Hc Hn Hb.
  destruct (@nth_error_ex _ (e0 :: E) (List.length (e0 :: E) - 1)) as [el Hel]; [simpl; lia|].
  rewrite (@contig_sum (e0 :: E) e0 el Hc eq_refl Hel). apply nth_error_In in Hel. rewrite Forall_forall in Hb. now apply Hb.
Qed.
End E.

Section C.
Context {V : Type}.
Notation faccess := (faccess V).
Notation dcoll := (dcoll V).
Context (first : V -> V) (pulse : V -> Z) (h5_empty : bool).

(** The rows of an entry kept by a selection; rows are (pulse ID, data). *)
Definition entry_sel (ps : psel) (rows : list (Z * V)) (e : entry) : list (Z * (Z * V)) :=
  if is_all (ps_val ps) then entry_rows rows e
  else if ps_by_id ps then filter (fun x => z_in (fst (snd x)) (desired (ps_val ps))) (entry_rows rows e)
  else pick (entry_rows rows e) (filter (fun i => i <? e_count e)%Z (desired (ps_val ps))).

Definition index_positions (D : list Z) (a : Z) (E : list entry) : list Z :=
  flat_map (fun e => map (Z.add (e_first e - a)) (filter (fun i => i <? e_count e)%Z D)) E.

Lemma index_positions_eq : forall v a E, is_all v = false ->
  select_pulse_indices v (map (fun x => (x - a)%Z) (map e_first E)) (map e_count E) = PosList (index_positions (desired v) a E).
Proof.
  intros v a E H. unfold select_pulse_indices. rewrite H. f_equal. rewrite map_map, combine_maps, flat_map_map. reflexivity.
Qed.

Definition selected_rows (ps : psel) (rows : list (Z * V)) (E : list entry) : list (Z * (Z * V)) := flat_map (entry_sel ps rows) E.

Lemma pick_index_positions : forall (rows : list (Z * V)) D E a, Forall (fun z => 0 <= z)%Z D -> contig E -> nonneg_entries E ->
  match E with e :: _ => e_first e = a | [] => True end ->
  Forall (fun e => e_first e + e_count e <= Z.of_nat (List.length rows))%Z E ->
  Forall (inside (flat_map (entry_rows rows) E)) (index_positions D a E) /\
  pick (flat_map (entry_rows rows) E) (index_positions D a E)
  = flat_map (fun e => pick (entry_rows rows e) (filter (fun i => i <? e_count e)%Z D)) E.
Proof.
  intros rows D E a HD Hc Hn Ha Hb. unfold index_positions. split.
  - apply Forall_forall. intros i Hi. apply in_flat_map in Hi as (e & He & Hi). apply in_map_iff in Hi as (j & <- & Hj).
    apply filter_In in Hj as [Hj1 Hj2]. apply Z.ltb_lt in Hj2. rewrite Forall_forall in HD. specialize (HD j Hj1).
    destruct (@entry_position _ rows E a e j Hc Hn Ha Hb He) as [G1 G2]; [lia|]. split; [lia|].
    rewrite Forall_forall in Hb. unfold nonneg_entries in Hn. rewrite Forall_forall in Hn.
    pose proof (@entry_rows_length _ rows e ltac:(now apply Hn) ltac:(now apply Hn) (Hb e He)) as L.
    destruct (@nth_error_ex _ (entry_rows rows e) (Z.to_nat j)) as [x Hx]; [lia|]. rewrite Hx in G2.
    assert (Z.to_nat (e_first e - a + j) < List.length (flat_map (entry_rows rows) E))%nat by (apply nth_error_Some; congruence). lia.
  - rewrite pick_flat_map. apply flat_map_ext_in. intros e He.
    assert (X : forall js, (forall j, In j js -> 0 <= j < e_count e)%Z ->
       pick (flat_map (entry_rows rows) E) (map (Z.add (e_first e - a)) js) = pick (entry_rows rows e) js).
    { induction js as [|j js IH]; intros H; simpl; [reflexivity|].
      destruct (@entry_position _ rows E a e j Hc Hn Ha Hb He (H j (or_introl eq_refl))) as [_ ->].
      destruct (nth_error (entry_rows rows e) (Z.to_nat j)); rewrite IH; auto; intros; apply H; now right. }
    apply X. intros j Hj. apply filter_In in Hj as [Hj1 Hj2]. apply Z.ltb_lt in Hj2. rewrite Forall_forall in HD.
    specialize (HD j Hj1). lia.
Qed.

(** Labels and data of the frames kept. *)
Definition lab (x : Z * (Z * V)) : Z * Z := (fst x, fst (snd x)).
Definition dat (x : Z * (Z * V)) : V := snd (snd x).

(** What is left to check after the rows of a chunk were found. *)
Definition finish (ps : psel) (ds : dataset V) (rows : list (Z * V)) (E : list entry) : res (arr V) :=
  if negb (ps_by_id ps) && negb (is_all (ps_val ps)) &&
     negb (increasing (index_positions (desired (ps_val ps)) 0 E)) then Err ETypeError
  else guess_axes first (ds_item ds) (map dat (selected_rows ps rows E)) (map lab (selected_rows ps rows E)).

Lemma increasing_shift : forall a l, increasing (map (Z.add a) l) = increasing l.
Proof.
  intros a; induction l as [|x [|y l] IH]; [reflexivity|reflexivity|].
  change (increasing (map (Z.add a) (x :: y :: l))) with ((a + x <? a + y)%Z && increasing (map (Z.add a) (y :: l))).
  rewrite IH. change (increasing (x :: y :: l)) with ((x <? y)%Z && increasing (y :: l)). f_equal.
  destruct (Z.ltb_spec x y), (Z.ltb_spec (a + x) (a + y)); lia || reflexivity.
Qed.
Lemma index_positions_shift : forall D a E, map (Z.add a) (index_positions D a E) = index_positions D 0 E.
Proof.
  intros D a E. unfold index_positions. rewrite map_flat_map. apply flat_map_ext_in. intros e _. rewrite map_map.
  apply map_ext. intros; lia.
Qed.

Lemma multi_index_combine : forall a b, List.length a = List.length b -> multi_index a b = Ok (combine a b).
Proof. intros a b H. unfold multi_index. now rewrite H, Nat.eqb_refl. Qed.

(** Reading the rows of a contiguous list of entries. *)
Lemma read_entries : forall (ps : psel) (ds pds : dataset V) e0 E',
  let E := e0 :: E' in
  let a := e_first e0 in let n := zsum (map e_count E) in
  let rows := combine (map pulse (ds_rows pds)) (ds_rows ds) in
  Forall (fun z => 0 <= z)%Z (desired (ps_val ps)) ->
  contig E -> nonneg_entries E ->
  Forall (fun e => e_first e + e_count e <= Z.of_nat (List.length (ds_rows ds)) /\
                   e_first e + e_count e <= Z.of_nat (List.length (ds_rows pds)))%Z E ->
  let pids := map pulse (ds_slice pds a (a + n)) in
  let pos := if ps_by_id ps then select_pulse_ids (ps_val ps) pids
             else select_pulse_indices (ps_val ps) (List.map (fun x => (x - a)%Z) (map e_first E)) (map e_count E) in
  (let* tids := take_positions (np_repeat (map fst E) (map e_count E)) pos in
   let* pids := take_positions pids pos in
   let* labels := multi_index tids pids in
   let* data := data_at ds a pos true in
   guess_axes first (ds_item ds) data labels) = finish ps ds rows E.
Proof.
  intros ps ds pds e0 E' E a n rows HD Hc Hn Hb.
  assert (Hbr : Forall (fun e => e_first e + e_count e <= Z.of_nat (List.length rows))%Z E).
  { unfold rows. rewrite combine_length, map_length. eapply Forall_impl; [|exact Hb]. simpl. intros; lia. }
  assert (Hbd : Forall (fun e => e_first e + e_count e <= Z.of_nat (List.length (ds_rows ds)))%Z E).
  { eapply Forall_impl; [|exact Hb]. simpl. intros; lia. }
  assert (Hbp : Forall (fun e => e_first e + e_count e <= Z.of_nat (List.length (ds_rows pds)))%Z E).
  { eapply Forall_impl; [|exact Hb]. simpl. intros; lia. }
  assert (Hcn : Forall (fun c => 0 <= c)%Z (map e_count E)).
  { apply Forall_map. eapply Forall_impl; [|exact Hn]. simpl; tauto. }
  assert (H0n : (0 <= n)%Z) by (apply zsum_nonneg; exact Hcn).
  assert (H0a : (0 <= a)%Z) by (inversion Hn; subst; unfold a; tauto).
  pose proof (@chunk_rows_fit _ (ds_rows ds) E' e0 Hc Hn Hbd) as Fd. fold E n a in Fd.
  pose proof (@chunk_rows_fit _ (ds_rows pds) E' e0 Hc Hn Hbp) as Fp. fold E n a in Fp.
  pose proof (@zslice_length _ (ds_rows ds) a n H0a H0n Fd) as Ld.
  pose proof (@zslice_length _ (ds_rows pds) a n H0a H0n Fp) as Lp.
  set (L := np_repeat (map fst E) (map e_count E)).
  assert (LL : Z.of_nat (List.length L) = n) by (apply np_repeat_length; [now rewrite !map_length|assumption]).
  set (D := zslice (ds_rows ds) a (a + n)) in *. set (P := map pulse (zslice (ds_rows pds) a (a + n))).
  assert (LP : Z.of_nat (List.length P) = n) by (unfold P; rewrite map_length; exact Lp).
  assert (LD : Z.of_nat (List.length D) = n) by exact Ld.
  assert (Hz : zslice rows a (a + n) = combine P D).
  { unfold rows, P, D. rewrite <- zslice_combine. f_equal. unfold zslice. now rewrite <- firstn_map, <- skipn_map. }
  assert (T : combine L (combine P D) = flat_map (entry_rows rows) E).
  { assert (Q := @labelled_chunk _ rows E a Hc Hn H0a eq_refl). fold n L in Q. rewrite Hz in Q. apply Q. rewrite combine_length. lia. }
  assert (TL : List.length (flat_map (entry_rows rows) E) = List.length L) by (rewrite <- T, !combine_length; lia).
  intros pids pos. change pids with P in *. clear pids.
  (* the result from the frames selected *)
  assert (R : forall l1 l2 l3, List.length l1 = List.length l2 -> List.length l2 = List.length l3 ->
     combine l1 (combine l2 l3) = selected_rows ps rows E ->
     l3 = map dat (selected_rows ps rows E) /\ combine l1 l2 = map lab (selected_rows ps rows E)).
  { intros l1 l2 l3 A1 A2 A3. rewrite <- A3. split.
    - unfold dat. rewrite <- (map_map snd snd), map_snd_combine by (rewrite combine_length; lia). now rewrite map_snd_combine.
    - unfold lab. rewrite (map_combine_r fst), map_fst_combine by assumption. reflexivity. }
  unfold finish. destruct (is_all (ps_val ps)) eqn:EA.
  - (* everything *)
    assert (Epos : pos = PosSlice 0 n 1).
    { unfold pos, select_pulse_ids, select_pulse_indices. rewrite EA. destruct (ps_by_id ps); f_equal. lia. }
    rewrite Epos. cbn [take_positions data_at]. rewrite !py_slice_zslice by lia. rewrite Z.add_0_r.
    assert (ZL : zslice L 0 n = L) by (rewrite <- LL; apply zslice_all).
    assert (ZP : zslice P 0 n = P) by (rewrite <- LP; apply zslice_all).
    cbn [bind]. rewrite ZL, ZP. rewrite multi_index_combine by lia. cbn [bind]. fold D.
    rewrite andb_false_r. simpl andb. cbv iota.
    destruct (R L P D) as [R1 R2]; [lia|lia| |rewrite <- R1, <- R2; reflexivity].
    rewrite T. unfold selected_rows. apply flat_map_ext_in. intros e _. unfold entry_sel. now rewrite EA.
  - assert (exists ix, pos = PosList ix /\ Forall (inside L) ix /\ pick (flat_map (entry_rows rows) E) ix = selected_rows ps rows E /\
       increasing (map (Z.add a) ix) = if ps_by_id ps then true else increasing (index_positions (desired (ps_val ps)) 0 E)) as (ix & Epos & Hin & Hpick & Hinc).
    { unfold pos. destruct (ps_by_id ps) eqn:EB.
      - unfold select_pulse_ids. rewrite EA. eexists. split; [reflexivity|]. split; [|split].
        + unfold np_isin. apply nonzero_inside. lia.
        + unfold np_isin. replace (map (fun x => z_in x (desired (ps_val ps))) P)
            with (map (fun x => z_in (fst (snd x)) (desired (ps_val ps))) (flat_map (entry_rows rows) E)).
          * rewrite pick_nonzero, filter_flat_map. unfold selected_rows. apply flat_map_ext_in. intros e _. unfold entry_sel.
            now rewrite EA, EB.
          * rewrite <- T. rewrite <- (map_map (fun x => fst (snd x)) (fun x => z_in x (desired (ps_val ps)))). f_equal.
            rewrite <- (map_map snd fst), map_snd_combine by (rewrite combine_length; lia). apply map_fst_combine. lia.
        + apply increasing_iff. rewrite map_map. eapply SS_map; [|apply nonzero_from_sorted]. simpl. intros; lia.
      - rewrite index_positions_eq by assumption.
        destruct (@pick_index_positions rows (desired (ps_val ps)) E a HD Hc Hn eq_refl Hbr) as [X1 X2].
        eexists. split; [reflexivity|]. split; [|split].
        + eapply inside_len; [exact TL|exact X1].
        + rewrite X2. unfold selected_rows. apply flat_map_ext_in. intros e _. unfold entry_sel. now rewrite EA, EB.
        + now rewrite index_positions_shift. }
    rewrite Epos. cbn [take_positions].
    assert (HinP : Forall (inside P) ix) by (eapply inside_len; [|exact Hin]; lia).
    assert (HinD : Forall (inside D) ix) by (eapply inside_len; [|exact Hin]; lia).
    rewrite !mapM_py_index by assumption. cbn [bind]. rewrite multi_index_combine by (rewrite !pick_length; trivial). cbn [bind].
    assert (Ed : data_at ds a (PosList ix) true =
      if increasing (map (Z.add a) ix) then Ok (pick D ix) else Err ETypeError).
    { destruct ix as [|i0 ix0]; [reflexivity|].
      change (h5_rows (ds_rows ds) (map (Z.add a) (i0 :: ix0)) = if increasing (map (Z.add a) (i0 :: ix0)) then Ok (pick D (i0 :: ix0)) else Err ETypeError).
      unfold h5_rows. destruct (increasing (map (Z.add a) (i0 :: ix0))); [|reflexivity].
      exact (@mapM_h5_rows V (ds_rows ds) a (a + n) (i0 :: ix0) H0a HinD). }
    rewrite Ed, Hinc. destruct (R (pick L ix) (pick P ix) (pick D ix)) as [R1 R2].
    + now rewrite !pick_length.
    + now rewrite !pick_length.
    + rewrite combine_pick by assumption. rewrite combine_pick; [|assumption|].
      * rewrite T. exact Hpick.
      * eapply inside_len; [|exact HinP]. rewrite combine_length. lia.
    + destruct (ps_by_id ps); cbn [negb andb bind].
      * rewrite <- R1, <- R2. reflexivity.
      * destruct (increasing (index_positions _ 0 E)); cbn [negb andb bind]; [|reflexivity]. rewrite <- R1, <- R2. reflexivity.
Qed.
End C.
