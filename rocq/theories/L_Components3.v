(** Chunks of consecutive trains, and the entries of a file for a chunk. *)
From Verif Require Import Base PyStr M_Files M_Machinery M_Reader M_Components S_Reader S_Coll S_Series S_Components
  L_Base L_Machinery L_Reader L_Trains L_GetArray L_Array2 L_SelTrains L_Series L_Components L_Components2.
Set Implicit Arguments. Unset Strict Implicit.
Local Open Scope list_scope.

Lemma py_index_last : forall (l : list Z) d, l <> [] -> py_index l (-1) = Ok (last l d).
Proof.
  intros l d H. unfold py_index. change (-1 <? 0)%Z with true. cbv iota.
  assert (0 < List.length l)%nat by (destruct l; [congruence|simpl; lia]).
  replace (0 <=? -1 + Z.of_nat (List.length l))%Z with true by lia.
  replace (-1 + Z.of_nat (List.length l) <? Z.of_nat (List.length l))%Z with true by lia. cbn [andb].
  assert (E : nth_error l (Z.to_nat (-1 + Z.of_nat (List.length l))) = Some (last l d)).
  { replace (Z.to_nat (-1 + Z.of_nat (List.length l))) with (List.length l - 1)%nat by lia. clear -H.
    induction l as [|x [|y l] IH]; [congruence|reflexivity|]. specialize (IH ltac:(discriminate)). simpl in *.
    rewrite Nat.sub_0_r in IH. exact IH. }
  now rewrite E.
Qed.

(** [c] is the list of the integers from [a] to [b]. *)
Definition is_run (c : list Z) (a b : Z) : Prop :=
  (a <= b)%Z /\ py_index c 0 = Ok a /\ py_index c (-1) = Ok b /\ StronglySorted Z.lt c /\ forall t, In t c <-> (a <= t <= b)%Z.

Lemma is_run_one : forall t, is_run [t] t t.
Proof.
  intros t. split; [lia|]. repeat split; try reflexivity; try (repeat constructor); simpl in *; intuition lia.
Qed.
Lemma is_run_cons : forall c a b t, is_run c a b -> t = (a - 1)%Z -> is_run (t :: c) t b.
Proof.
  intros c a b t (H1 & H2 & H3 & H4 & H5) ->. split; [lia|].
  assert (c <> []) by (destruct c; [discriminate|discriminate]). split; [reflexivity|]. split; [|split].
  - rewrite (@py_index_last ((a - 1)%Z :: c) 0%Z) by discriminate. rewrite (@py_index_last c 0%Z) in H3 by assumption.
    destruct c; [congruence|]. exact H3.
  - constructor; [assumption|]. apply Forall_forall. intros x Hx. apply H5 in Hx. lia.
  - intros x. simpl. rewrite H5. lia.
Qed.
Lemma split_chunks_spec : forall l, l <> [] ->
  List.concat (split_chunks l) = l /\ Forall (fun c => exists a b, is_run c a b) (split_chunks l) /\
  match split_chunks l with c :: _ => py_index c 0 = py_index l 0 | [] => False end.
Proof.
  induction l as [|t l IH]; intros Hne; [congruence|]. clear Hne. destruct l as [|t' l].
  - simpl. split; [reflexivity|]. split; [repeat constructor; exists t, t; apply is_run_one|reflexivity].
  - specialize (IH ltac:(discriminate)). cbn [split_chunks] in *. set (S1 := match l with [] => _ | _ => _ end) in *.
    destruct S1 as [|c cs]; [destruct IH as (_ & _ & [])|]. destruct IH as (I1 & I2 & I3).
    inversion I2 as [|? ? (a & b & Hr) I2']; subst. destruct (t' - t =? 1)%Z eqn:E.
    + split; [simpl in *; now rewrite I1|]. split; [|reflexivity]. constructor; [|assumption]. exists t, b.
      eapply is_run_cons; [exact Hr|]. destruct Hr as (_ & Hr & _). rewrite Hr in I3. unfold py_index in I3. simpl in I3.
      injection I3 as ->. apply Z.eqb_eq in E. lia.
    + split; [simpl in *; now rewrite I1|]. split; [|reflexivity].
      constructor; [exists t, t; apply is_run_one|]. constructor; [eauto|assumption].
Qed.

Lemma sorted_bounds : forall l x, StronglySorted Z.lt l -> In x l -> exists a b, py_index l 0 = Ok a /\ py_index l (-1) = Ok b /\
  In a l /\ In b l /\ forall y, In y l -> (a <= y <= b)%Z.
Proof.
  intros l x HS Hx. destruct l as [|a l]; [destruct Hx|]. exists a, (last (a :: l) 0%Z).
  split; [reflexivity|]. split; [apply py_index_last; discriminate|]. split; [now left|].
  split; [apply last_In; discriminate|]. intros y Hy. split.
  - inversion HS; subst. destruct Hy as [->|Hy]; [lia|]. rewrite Forall_forall in H2. specialize (H2 y Hy). lia.
  - now apply last_max.
Qed.

(** A slice between two values of a sorted list. *)
Lemma sorted_nslice : forall A (key : A -> Z) (E : list A) i j x y, StronglySorted Z.lt (map key E) ->
  nth_error (map key E) i = Some x -> nth_error (map key E) j = Some y -> (x <= y)%Z ->
  nslice E i (j + 1) = filter (fun e => (x <=? key e) && (key e <=? y))%Z E.
Proof.
  intros A key E i j x y HS Hi Hj Hxy.
  assert (Hle : forall p q u v, nth_error (map key E) p = Some u -> nth_error (map key E) q = Some v -> (u <= v)%Z <-> (p <= q)%nat).
  { intros p q u v Hp Hq. split; intros H.
    - destruct (Nat.leb_spec p q) as [|Hlt]; [assumption|]. pose proof (@sorted_nth_lt _ q p v u HS Hq Hp Hlt). lia.
    - destruct (Nat.eq_dec p q) as [->|Hne]; [replace u with v by congruence; lia|].
      assert (Hlt : (p < q)%nat) by lia. pose proof (@sorted_nth_lt _ p q u v HS Hp Hq Hlt). lia. }
  assert (Hij : (i <= j)%nat) by (apply (Hle i j x y Hi Hj); exact Hxy).
  rewrite <- (@regions_filter _ (fun e => (x <=? key e) && (key e <=? y))%Z E [(i, j + 1)%nat]).
  - simpl. now rewrite app_nil_r.
  - split; [|split].
    + intros p. rewrite nth_error_map. split.
      * intros H. destruct (nth_error E p) as [e|] eqn:Ep; [|discriminate]. simpl in H. injection H as H.
        exists i, (j + 1)%nat. split; [now left|]. apply andb_true_iff in H as [H1 H2].
        assert (Kp : nth_error (map key E) p = Some (key e)) by (rewrite nth_error_map, Ep; reflexivity).
        pose proof (proj1 (Hle i p _ _ Hi Kp)). pose proof (proj1 (Hle p j _ _ Kp Hj)). lia.
      * intros (a & b & [H|[]] & Hab). injection H as <- <-.
        assert (j < List.length (map key E))%nat by (apply nth_error_Some; congruence). rewrite map_length in H.
        destruct (@nth_error_ex _ E p) as [e He]; [lia|]. rewrite He. simpl. f_equal. apply andb_true_iff.
        assert (Kp : nth_error (map key E) p = Some (key e)) by (rewrite nth_error_map, He; reflexivity).
        pose proof (proj2 (Hle i p _ _ Hi Kp)). pose proof (proj2 (Hle p j _ _ Kp Hj)). lia.
    + repeat constructor. simpl. lia.
    + repeat constructor.
Qed.

Lemma nslice_entries : forall tids firsts counts a b,
  nslice (entries tids firsts counts) a b = entries (nslice tids a b) (nslice firsts a b) (nslice counts a b).
Proof. intros. unfold entries, nslice. now rewrite !combine_firstn, !combine_skipn. Qed.
Lemma entries_first : forall tids firsts counts,
  List.length firsts = List.length tids -> List.length counts = List.length tids ->
  map e_first (entries tids firsts counts) = firsts.
Proof.
  unfold entries; induction tids as [|t tids IH]; intros [|f firsts] [|c counts] H1 H2; simpl in *; try discriminate; [reflexivity|].
  f_equal; apply IH; lia.
Qed.

Lemma range1_spec : forall a b, let ts := py_range a (b + 1) 1 in
  (forall t, In t ts <-> (a <= t <= b)%Z) /\ StronglySorted Z.lt ts /\ ((a <= b)%Z -> Z.of_nat (List.length ts) = (b - a + 1)%Z).
Proof.
  intros a b ts. split; [|split].
  - intros t. unfold ts, py_range. rewrite in_map_iff. unfold range_len. change (0 <? 1)%Z with true. cbv iota. split.
    + intros (k & <- & Hk). apply in_seq in Hk. destruct (Z.ltb_spec a (b + 1)); [|simpl in Hk; lia].
      replace (b + 1 - a + 1 - 1)%Z with (b + 1 - a)%Z in Hk by lia. rewrite Z.div_1_r in Hk. lia.
    + intros H. exists (Z.to_nat (t - a)). split; [lia|]. apply in_seq. destruct (Z.ltb_spec a (b + 1)); [|lia].
      replace (b + 1 - a + 1 - 1)%Z with (b + 1 - a)%Z by lia. rewrite Z.div_1_r. lia.
  - unfold ts, py_range. apply map_seq_sorted. intros; lia.
  - intros H. unfold ts, py_range, range_len. rewrite map_length, seq_length. change (0 <? 1)%Z with true. cbv iota.
    destruct (Z.ltb_spec a (b + 1)); [|lia]. replace (b + 1 - a + 1 - 1)%Z with (b + 1 - a)%Z by lia. rewrite Z.div_1_r. lia.
Qed.

Section C.
Context {V : Type}.
Notation faccess := (faccess V).
Context (first : V -> V) (pulse : V -> Z).

(** No train of [c] is missing between the first and the last train of the file. *)
Definition gapless (f : faccess) (c : list Z) : Prop :=
  forall t x y, In t c -> In x (fa_tids f) -> In y (fa_tids f) -> (x <= t <= y)%Z -> In t (fa_tids f).

(** The entries of a file and its datasets. *)
Record module_data (f : faccess) (s k : string) (E : list entry) (ds pds : dataset V) : Prop := {
  md_sorted : StronglySorted Z.lt (fa_tids f);
  md_ix : exists firsts counts, fa_get_index f s (key_group k) = Ok (firsts, counts) /\
    List.length firsts = List.length (fa_tids f) /\ List.length counts = List.length (fa_tids f) /\
    E = entries (fa_tids f) firsts counts;
  md_contig : contig E;
  md_nonneg : nonneg_entries E;
  md_ds : fa_dataset f (ds_path "INSTRUMENT" s k) = Ok ds;
  md_pds : fa_dataset f ("INSTRUMENT/" ++ s ++ "/" ++ key_group k ++ "/pulseId")%string = Ok pds;
  md_item : ds_item pds = [] \/ ds_item pds = [1%Z];
  md_bounds : Forall (fun e => e_first e + e_count e <= Z.of_nat (List.length (ds_rows ds)) /\
                   e_first e + e_count e <= Z.of_nat (List.length (ds_rows pds)))%Z E }.

Lemma tid_position : forall (f : faccess) t, In t (fa_tids f) -> exists p, nth_res (tid_positions f t) 0 = Ok p /\ nth_error (fa_tids f) p = Some t.
Proof.
  intros f t H. destruct (tid_positions f t) as [|p r] eqn:E.
  - apply tid_positions_nil in E. contradiction.
  - exists p. split; [reflexivity|]. eapply tid_positions_spec; eassumption.
Qed.
Lemma tid_position_inv : forall (f : faccess) t p, nth_res (tid_positions f t) 0 = Ok p -> nth_error (fa_tids f) p = Some t.
Proof.
  intros f t p H. destruct (tid_positions f t) as [|q r] eqn:E; [discriminate|]. injection H as ->.
  eapply tid_positions_spec; eassumption.
Qed.

Lemma chunk_part_spec : forall (f : faccess) s k ps E ds pds firsts counts c c0 c1,
  module_data f s k E ds pds -> fa_get_index f s (key_group k) = Ok (firsts, counts) ->
  fa_tids f <> [] -> is_run c c0 c1 -> Forall (fun z => 0 <= z)%Z (desired (ps_val ps)) ->
  let E' := filter (fun e => z_in (fst e) c) E in
  let rows := combine (map pulse (ds_rows pds)) (ds_rows ds) in
  (gapless f c -> chunk_part first pulse f s k ps firsts counts c =
     match E' with [] => Ok None | _ => let* a := finish first ps ds rows E' in Ok (Some a) end) /\
  (~ gapless f c -> exists e, chunk_part first pulse f s k ps firsts counts c = Err e).
Proof.
  intros f s k ps E ds pds firsts counts c c0 c1 Hm Hix Hne Hrun HD E' rows.
  destruct Hm as [HS (firsts' & counts' & Hix' & L1 & L2 & HE) Hct Hnn Hds Hpds Hit Hbd].
  rewrite Hix in Hix'. injection Hix' as <- <-.
  pose proof (@entries_fst (fa_tids f) firsts counts L1 L2) as Efst. rewrite <- HE in Efst.
  pose proof (@entries_first (fa_tids f) firsts counts L1 L2) as Efirst. rewrite <- HE in Efirst.
  pose proof (@entries_count (fa_tids f) firsts counts L1 L2) as Ecnt. rewrite <- HE in Ecnt.
  destruct (fa_tids f) as [|x0 xs] eqn:Et; [congruence|]. rewrite <- Et in *.
  destruct (@sorted_bounds (fa_tids f) x0 HS ltac:(rewrite Et; now left)) as (f0 & f1 & F0 & F1 & I0 & I1 & Hb).
  destruct Hrun as (Hc01 & C0 & C1 & HSc & Hc).
  assert (Hgap : gapless f c <-> forall t, (Z.max c0 f0 <= t <= Z.min c1 f1)%Z -> In t (fa_tids f)).
  { unfold gapless. split.
    - intros G t Ht. apply (G t f0 f1); auto; [apply Hc|]; lia.
    - intros G t x y Ht Hx Hy Hxy. apply G. apply Hc in Ht. apply Hb in Hx, Hy. lia. }
  unfold chunk_part. rewrite C0, C1, F0, F1. cbn [bind].
  destruct ((c1 <? f0)%Z || (f1 <? c0)%Z) eqn:Eov.
  { assert (HE' : E' = []).
    { unfold E'. apply filter_none. intros e He. destruct (z_in (fst e) c) eqn:Z1; [|reflexivity].
      apply z_in_iff in Z1. apply Hc in Z1. apply (in_map fst) in He. rewrite Efst in He. apply Hb in He.
      apply orb_true_iff in Eov as [X|X]; lia. }
    rewrite HE'. split; [reflexivity|]. intros G. exfalso. apply G, Hgap. intros t Ht.
    apply orb_true_iff in Eov as [X|X]; lia. }
  apply orb_false_iff in Eov as [O1 O2]. apply Z.ltb_ge in O1, O2.
  assert (HE' : E' = filter (fun e => (Z.max c0 f0 <=? fst e) && (fst e <=? Z.min c1 f1))%Z E).
  { unfold E'. apply filter_ext_in. intros e He. apply (in_map fst) in He. rewrite Efst in He. apply Hb in He.
    destruct (z_in (fst e) c) eqn:Z1.
    - apply z_in_iff, Hc in Z1. symmetry. apply andb_true_iff. lia.
    - symmetry. apply andb_false_iff. destruct (Z.leb_spec (Z.max c0 f0) (fst e)); [|now left].
      destruct (Z.leb_spec (fst e) (Z.min c1 f1)); [|now right]. exfalso.
      assert (z_in (fst e) c = true) by (apply z_in_iff, Hc; lia). congruence. }
  assert (Hxy : (Z.max c0 f0 <= Z.min c1 f1)%Z) by (pose proof (Hb f0 I0); lia).
  (* both ends in the file *)
  assert (Main : forall fi li, nth_error (fa_tids f) fi = Some (Z.max c0 f0) -> nth_error (fa_tids f) li = Some (Z.min c1 f1) ->
     nslice firsts fi (li + 1) = map e_first E' /\ nslice counts fi (li + 1) = map e_count E' /\ E' <> [] /\
     (Z.of_nat (List.length E') = 1 -> Z.max c0 f0 = Z.min c1 f1)%Z /\ exists i j, E' = nslice E i j).
  { intros fi li Hfi Hli. rewrite <- Efst in Hfi, Hli.
    pose proof (@sorted_nslice _ fst E fi li _ _ ltac:(rewrite Efst; exact HS) Hfi Hli Hxy) as Q. rewrite <- HE' in Q.
    rewrite <- Q, <- Efirst, <- Ecnt. rewrite !nslice_map. do 2 (split; [reflexivity|]).
    rewrite nth_error_map in Hfi. destruct (@nth_error (Z * (Z * Z)) E fi) as [e|] eqn:Ee in Hfi; [|discriminate Hfi]. apply (f_equal (fun o => match o with Some z => z | None => 0%Z end)) in Hfi. cbn in Hfi.
    rewrite nth_error_map in Hli. destruct (@nth_error (Z * (Z * Z)) E li) as [e2|] eqn:Ee2 in Hli; [|discriminate Hli]. apply (f_equal (fun o => match o with Some z => z | None => 0%Z end)) in Hli. cbn in Hli.
    assert (In e E') by (rewrite HE'; apply filter_In; split; [eapply nth_error_In; eassumption|apply andb_true_iff; lia]).
    assert (In e2 E') by (rewrite HE'; apply filter_In; split; [eapply nth_error_In; eassumption|apply andb_true_iff; lia]).
    rewrite Q. split; [intros X; rewrite X in H; exact H|]. split; [|eauto].
    intros X. destruct E' as [|u [|v r]]; simpl in X; try lia. destruct H as [H|[]], H0 as [H0|[]]. subst. lia. }
  assert (HSE : StronglySorted Z.lt (map fst E')).
  { unfold E'. rewrite <- Efst in HS. clear -HS. induction E as [|e E IH]; simpl; [constructor|].
    inversion HS; subst. destruct (z_in (fst e) c); [|now apply IH]. simpl. constructor; [now apply IH|].
    rewrite Forall_forall in *. intros x Hx. apply H2. apply in_map_iff in Hx as (y & <- & Hy).
    apply filter_In in Hy as [Hy _]. now apply in_map. }
  destruct (@range1_spec (Z.max c0 f0) (Z.min c1 f1)) as (R1 & R2 & R3). specialize (R3 Hxy).
  set (ts := py_range (Z.max c0 f0) (Z.min c1 f1 + 1) 1) in *.
  assert (Hin : forall t, In t (map fst E') -> In t ts).
  { intros t Ht. apply R1. apply in_map_iff in Ht as (e & <- & He). rewrite HE' in He. apply filter_In in He as [_ He].
    apply andb_true_iff in He. lia. }
  split.
  - intros G. rewrite Hgap in G.
    destruct (@tid_position f (Z.max c0 f0)) as (fi & P1 & N1); [apply G; lia|].
    destruct (@tid_position f (Z.min c1 f1)) as (li & P2 & N2); [apply G; lia|].
    destruct (Main fi li N1 N2) as (M1 & M2 & M3 & M4 & (i1 & j1 & M5)). rewrite P1, P2. cbn [bind]. rewrite M1, M2.
    assert (Ets : ts = map fst E').
    { apply sorted_lt_ext; [assumption|assumption|]. intros t. split; [|apply Hin]. intros Ht. apply R1 in Ht.
      pose proof (G t Ht) as Hf. rewrite <- Efst in Hf. apply in_map_iff in Hf as (e & <- & He).
      apply in_map. rewrite HE'. apply filter_In. split; [assumption|]. apply andb_true_iff. lia. }
    assert (Hct' : contig E') by (rewrite M5; now apply contig_nslice).
    assert (Hsub : forall e, In e E' -> In e E) by (intros e He; apply filter_In in He; tauto).
    assert (Hnn' : nonneg_entries E').
    { unfold nonneg_entries in *. rewrite Forall_forall in *. auto. }
    assert (Hbd' : Forall (fun e => e_first e + e_count e <= Z.of_nat (List.length (ds_rows ds)) /\
                   e_first e + e_count e <= Z.of_nat (List.length (ds_rows pds)))%Z E').
    { rewrite Forall_forall in *. auto. }
    assert (RR : repeat_range (Z.max c0 f0) (Z.min c1 f1) (map e_count E') = Ok (np_repeat (map fst E') (map e_count E'))).
    { unfold repeat_range. fold ts. rewrite Ets, !map_length, Nat.eqb_refl. reflexivity. }
    clearbody E'. destruct E' as [|e0 E1]; [congruence|].
    assert (LT : forall A (h : entry -> A) d, py_index (map h (e0 :: E1)) (-1) = Ok (last (map h (e0 :: E1)) d)).
    { intros A h d. unfold py_index. change (-1 <? 0)%Z with true. cbv iota. set (l := map h (e0 :: E1)).
      assert (Hl : l <> []) by discriminate. clearbody l. clear -Hl.
      assert (0 < List.length l)%nat by (destruct l; [congruence|simpl; lia]).
      replace (0 <=? -1 + Z.of_nat (List.length l))%Z with true by lia.
      replace (-1 + Z.of_nat (List.length l) <? Z.of_nat (List.length l))%Z with true by lia. cbn [andb].
      replace (Z.to_nat (-1 + Z.of_nat (List.length l))) with (List.length l - 1)%nat by lia.
      assert (X : nth_error l (List.length l - 1) = Some (last l d)); [|now rewrite X].
      clear H. induction l as [|x [|y l] IH]; [congruence|reflexivity|]. specialize (IH ltac:(discriminate)). simpl in *.
      rewrite Nat.sub_0_r in IH. exact IH. }
    rewrite (LT _ e_first 0%Z), (LT _ e_count 0%Z). change (py_index (map e_first (e0 :: E1)) 0) with (Ok (e_first e0)). cbn [bind].
    rewrite RR. cbn [bind].
    assert (Hstop : (last (map e_first (e0 :: E1)) 0 + last (map e_count (e0 :: E1)) 0 = e_first e0 + zsum (map e_count (e0 :: E1)))%Z).
    { destruct (@nth_error_ex _ (e0 :: E1) (List.length (e0 :: E1) - 1)) as [el Hel]; [simpl; lia|].
      rewrite (@contig_sum (e0 :: E1) e0 el Hct' eq_refl Hel).
      assert (LN : forall (h : entry -> Z) l, nth_error l (List.length l - 1) = Some el -> last (map h l) 0%Z = h el).
      { clear. intros h. induction l as [|x [|y l] IH]; simpl; intros H; [discriminate|now injection H as ->|].
        simpl in IH. rewrite Nat.sub_0_r in IH. apply IH. exact H. }
      now rewrite !(LN _ _ Hel). }
    rewrite Hstop. unfold read_pulse_ids. rewrite Hpds. cbn [bind].
    assert (Hrp : (match ds_item pds with [] | [1%Z] => Ok (map pulse (ds_slice pds (e_first e0) (e_first e0 + zsum (map e_count (e0 :: E1)))))
                    | _ => Err EValueError end) = Ok (map pulse (ds_slice pds (e_first e0) (e_first e0 + zsum (map e_count (e0 :: E1)))))).
    { destruct Hit as [-> | ->]; reflexivity. }
    rewrite Hrp. cbn [bind]. rewrite Hds. cbn [bind].
    pose proof (@read_entries V first pulse ps ds pds e0 E1 HD Hct' Hnn' Hbd') as RE. cbv zeta in RE.
    fold rows in RE. match type of RE with _ = ?R => match goal with |- _ = bind ?F _ => change F with R end end. rewrite <- RE. clear RE.
    set (pos := if ps_by_id ps then _ else _).
    destruct (take_positions (np_repeat _ _) pos); cbn [bind]; [|reflexivity].
    destruct (take_positions (map pulse _) pos); cbn [bind]; [|reflexivity].
    destruct (multi_index _ _); cbn [bind]; [|reflexivity].
    destruct (data_at _ _ _ _); reflexivity.
  - intros G.
    destruct (nth_res (tid_positions f (Z.max c0 f0)) 0) as [fi|e] eqn:P1; cbn [bind]; [|eauto].
    destruct (nth_res (tid_positions f (Z.min c1 f1)) 0) as [li|e] eqn:P2; cbn [bind]; [|eauto].
    destruct (Main fi li (tid_position_inv P1) (tid_position_inv P2)) as (M1 & M2 & M3 & M4 & _). rewrite M1, M2.
    destruct (py_index (map e_first E') 0) as [?|e]; cbn [bind]; [|eauto].
    destruct (py_index (map e_first E') (-1)) as [?|e]; cbn [bind]; [|eauto].
    destruct (py_index (map e_count E') (-1)) as [?|e]; cbn [bind]; [|eauto].
    unfold repeat_range. fold ts.
    assert (Hlen : List.length ts <> List.length (map e_count E')).
    { intros X. apply G, Hgap. intros t Ht.
      assert (In t (map fst E')).
      { apply (@NoDup_length_incl _ (map fst E') ts); [|rewrite X, !map_length; apply le_n|exact Hin|now apply R1].
        now apply StronglySorted_NoDup_lt. }
      apply in_map_iff in H as (e & <- & He). rewrite HE' in He. apply filter_In in He as [He _].
      rewrite <- Efst. now apply in_map. }
    destruct (Nat.eqb_spec (List.length ts) (List.length (map e_count E'))); [contradiction|].
    destruct (map e_count E') as [|x [|y r]] eqn:Ec; cbn [bind]; eauto.
    exfalso. assert (List.length E' = 1)%nat by (rewrite <- (map_length e_count), Ec; reflexivity).
    rewrite M4 in R3 by lia. simpl in Hlen. lia.
Qed.
End C.
