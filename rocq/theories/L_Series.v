(** Lemmas for get_data_counts, get_series and get_dask_array. *)
From Verif Require Import Base PyStr M_Files M_Machinery M_Reader M_Glob M_Select M_Series S_Reader S_Coll S_Series
  L_Base L_Machinery L_Reader L_GetArray L_Select L_Array2 L_Trains.
Set Implicit Arguments.
Unset Strict Implicit.
Local Open Scope string_scope.
Local Open Scope list_scope.

Lemma z_unique_iff : forall l, z_unique l = true <-> NoDup l.
Proof.
  induction l as [|x l IH]; simpl; [split; [constructor|reflexivity]|].
  rewrite andb_true_iff, negb_true_iff, IH, z_in_false. split.
  - intros [H1 H2]; now constructor.
  - intros H; inversion H; auto.
Qed.

Lemma sort_parts_ok : forall A (head : A -> Z) parts q, sort_parts head parts = Ok q ->
  Permutation parts q /\ forall p, In p parts -> p <> [].
Proof.
  intros A head parts q H. unfold sort_parts in H. destruct (existsb _ _) eqn:E; [discriminate|].
  injection H as <-. split; [apply sort_key_perm|]. intros p Hp ->.
  assert (X : existsb (fun p : list A => match p with [] => true | _ => false end) parts = true).
  { apply existsb_exists. exists []; auto. } congruence.
Qed.
Lemma sort_parts_total : forall A (head : A -> Z) parts, (forall p, In p parts -> p <> []) ->
  exists q, sort_parts head parts = Ok q.
Proof.
  intros A head parts H. unfold sort_parts. destruct (existsb _ _) eqn:E; [|eauto].
  apply existsb_exists in E as (p & Hp & E). destruct p; [|discriminate]. exfalso. exact (H _ Hp eq_refl).
Qed.
Lemma sort_parts_empty : forall A (head : A -> Z) parts, In [] parts -> sort_parts head parts = Err EIndexError.
Proof.
  intros A head parts H. unfold sort_parts. replace (existsb _ _) with true; [reflexivity|].
  symmetry. apply existsb_exists. exists []; auto.
Qed.
Lemma pd_concat_ok : forall A (l : list (list A)) r, pd_concat l = Ok r -> l <> [] /\ r = List.concat l.
Proof. intros A [|x l] r H; simpl in H; [discriminate|]. injection H as <-. split; [discriminate|reflexivity]. Qed.

Section S.
Context {V : Type}.
Notation faccess := (faccess V).
Notation dcoll := (dcoll V).

(** ** Parts of files put together *)
Section Parts.
Context {A : Type} (tid : A -> Z).
Let at_t (t : Z) (P : list A) := filter (fun r => (tid r =? t)%Z) P.

Lemma at_none : forall t P, (forall r, In r P -> tid r <> t) -> at_t t P = [].
Proof.
  intros t P H. unfold at_t. induction P as [|r P IH]; simpl; [reflexivity|].
  destruct (tid r =? t)%Z eqn:E; [apply Z.eqb_eq in E; exfalso; exact (H r (or_introl eq_refl) E)|].
  apply IH. intros; apply H; now right.
Qed.

Lemma parts_one : forall t (fs : list faccess) parts,
  Forall2 (fun f P => forall r, In r P -> In (tid r) (fa_tids f)) fs parts ->
  NoDup (flat_map (@fa_tids V) fs) ->
  ForallOrdPairs (fun P Q => at_t t P = [] \/ at_t t Q = []) parts /\
  (forall f P, In (f, P) (combine fs parts) -> In t (fa_tids f) -> flat_map (at_t t) parts = at_t t P) /\
  ((forall f, In f fs -> ~ In t (fa_tids f)) -> flat_map (at_t t) parts = []).
Proof.
  intros t fs parts H. induction H as [|f P fs parts Hf H IH]; intros HN; simpl.
  - split; [constructor|]. split; [intros f P []|reflexivity].
  - simpl in HN. destruct (IH (NoDup_app_r _ _ HN)) as (I1 & I2 & I3).
    assert (Hno : ~ In t (fa_tids f) -> at_t t P = []).
    { intros Hn. apply at_none. intros r Hr E. apply Hn. rewrite <- E. now apply Hf. }
    assert (Hoth : In t (fa_tids f) -> forall Q, In Q parts -> at_t t Q = []).
    { intros Ht Q HQ. destruct (Forall2_In_r H HQ) as (f' & Hf' & Hq). apply at_none. intros r Hr E.
      eapply NoDup_app_disjoint; [exact HN|exact Ht|]. apply in_flat_map. exists f'. split; [assumption|].
      rewrite <- E. now apply Hq. }
    split; [|split].
    + constructor; [|assumption]. apply Forall_forall. intros Q HQ.
      destruct (in_dec Z.eq_dec t (fa_tids f)) as [Ht|Ht]; [right; auto|left; auto].
    + intros f' P' [E|Hin] Ht.
      * injection E as <- <-. rewrite flat_map_nil; [apply app_nil_r|]. intros Q HQ; auto.
      * rewrite (I2 _ _ Hin Ht). destruct (in_dec Z.eq_dec t (fa_tids f)) as [Ht'|Ht'].
        -- exfalso. eapply NoDup_app_disjoint; [exact HN|exact Ht'|]. apply in_flat_map. exists f'.
           split; [eapply in_combine_l; eassumption|assumption].
        -- rewrite (Hno Ht'). reflexivity.
    + intros Hall. rewrite Hno by (apply Hall; now left). simpl. apply I3. intros; apply Hall; now right.
Qed.

(** Sorting the parts and keeping selected trains. *)
Lemma parts_at : forall sel t (fs : list faccess) parts q,
  Forall2 (fun f P => forall r, In r P -> In (tid r) (fa_tids f)) fs parts ->
  NoDup (flat_map (@fa_tids V) fs) -> Permutation parts q ->
  (forall f P, In (f, P) (combine fs parts) -> In t (fa_tids f) -> In t sel ->
     at_t t (filter (fun r => z_in (tid r) sel) (List.concat q)) = at_t t P) /\
  (~ (In t sel /\ exists f, In f fs /\ In t (fa_tids f)) ->
     at_t t (filter (fun r => z_in (tid r) sel) (List.concat q)) = []).
Proof.
  intros sel t fs parts q HF HN HP. destruct (parts_one t HF HN) as (O1 & O2 & O3).
  destruct (flat_map_perm_single _ HP O1) as [P1 _].
  assert (E : In t sel -> at_t t (filter (fun r => z_in (tid r) sel) (List.concat q)) = flat_map (at_t t) parts).
  { intros Ht. rewrite P1. unfold at_t. rewrite <- (map_id q), <- flat_map_concat_map.
    rewrite !filter_flat_map. rewrite flat_map_map. apply flat_map_ext_in. intros P _.
    clear -Ht. induction P as [|r P IH]; simpl; [reflexivity|].
    destruct (z_in (tid r) sel) eqn:E1; simpl.
    - destruct (tid r =? t)%Z; now rewrite IH.
    - destruct (tid r =? t)%Z eqn:E2; [|assumption]. apply Z.eqb_eq in E2. apply z_in_false in E1. congruence. }
  split.
  - intros f P Hin Ht Hsel. rewrite (E Hsel). eauto.
  - intros Hno. destruct (in_dec Z.eq_dec t sel) as [Hs|Hs].
    + rewrite (E Hs). apply O3. intros f Hf Ht. apply Hno. split; [assumption|]. eauto.
    + apply at_none. intros r Hr Et. apply filter_In in Hr as [_ Hr]. apply z_in_iff in Hr. congruence.
Qed.
End Parts.

Lemma combine_In_ex : forall A B (R : A -> B -> Prop) l l' x, Forall2 R l l' -> In x l ->
  exists y, In (x, y) (combine l l') /\ R x y.
Proof.
  intros A B R l l' x H. induction H as [|a b l l' Hab H IH]; intros Hx; [destruct Hx|].
  destruct Hx as [->|Hx]; [exists b; split; [now left|assumption]|].
  destruct (IH Hx) as (y & H1 & H2). exists y; split; [now right|assumption].
Qed.
Lemma combine_R : forall A B (R : A -> B -> Prop) l l' x y, Forall2 R l l' -> In (x, y) (combine l l') -> R x y.
Proof.
  intros A B R l l' x y H. induction H as [|a b l l' Hab H IH]; intros Hx; [destruct Hx|].
  destruct Hx as [E|Hx]; [injection E as <- <-; assumption|auto].
Qed.

Lemma check_field_source : forall (d : dcoll) s k, check_field d s k = Ok tt -> In s (dc_sources d).
Proof.
  intros d s k H. unfold check_field in H. destruct (str_in s (dc_sources d)) eqn:E; [now apply str_in_iff|discriminate].
Qed.
Lemma source_has_file : forall (d : dcoll) s, built d -> In s (dc_sources d) -> source_files (dc_files d) s <> [].
Proof.
  intros d s (_ & Hc & Hi) Hs E. unfold dc_sources in Hs. apply set_union_In in Hs.
  assert (exists f, In f (dc_files d) /\ In s (fa_sources f)) as (f & H1 & H2).
  { destruct Hs as [Hs|Hs]; [apply Hc in Hs|apply Hi in Hs]; destruct Hs as (f & H1 & H2 & _); exists f;
      (split; [assumption|apply fa_sources_In; auto]). }
  assert (X : In f (source_files (dc_files d) s)) by (apply source_files_In; auto). rewrite E in X. destruct X.
Qed.
Lemma inst_not_ctrl : forall (d : dcoll) s, built d -> distinct_kinds d -> In s (dc_inst d) ->
  str_in s (dc_ctrl d) = false /\ In s (dc_sources d).
Proof.
  intros d s Hb Hk Hs. assert (Hss : In s (dc_sources d)) by (apply set_union_In; now right).
  split; [|assumption]. destruct (kind_split _ Hb Hk Hss) as [(_ & X & _)|(X & _)]; [|exact X].
  apply str_in_false in X. contradiction.
Qed.

(** ** get_data_counts *)
Lemma counts_part_spec : forall (d : dcoll) s k f, str_in s (dc_ctrl d) = false ->
  readable_index d s k -> In f (dc_files d) -> In s (fa_sources f) ->
  exists counts, counts_part d s k f = Ok (combine (fa_tids f) counts) /\
    List.length counts = List.length (fa_tids f) /\
    exists g, dict_get (index_key false s k) (h5_index (fa_file f)) = Some g /\
      forall p, (p < List.length (fa_tids f))%nat -> nth_error counts p = entry_count g p.
Proof.
  intros d s k f Hc Hi Hf Hs. unfold counts_part. rewrite Hc.
  destruct (Hi f Hf Hs) as (g & Hg & Hok). rewrite Hc in Hg.
  assert (Hg' := Hg). rewrite <- ix_path_inst in Hg'.
  destruct (index_read _ _ _ Hg' Hok) as (firsts & counts & Hix & L1 & L2 & Hn).
  rewrite Hix. simpl. rewrite L2, Nat.eqb_refl. exists counts. split; [reflexivity|]. split; [assumption|].
  exists g. split; [assumption|]. intros p Hp. apply Hn; assumption.
Qed.

Lemma combine_nth_iff : forall A B (l : list A) (l' : list B) p x y,
  nth_error (combine l l') p = Some (x, y) <-> nth_error l p = Some x /\ nth_error l' p = Some y.
Proof.
  induction l as [|a l IH]; intros l' p x y; simpl.
  - destruct p; simpl; intuition discriminate.
  - destruct l' as [|b l']; simpl.
    + destruct p; simpl; intuition discriminate.
    + destruct p; simpl; [|apply IH]. split; [intros H; injection H as -> ->; auto|].
      intros [H1 H2]; congruence.
Qed.

Lemma file_count_at : forall (d : dcoll) s k f p t g c, Forall opened (dc_files d) -> good_files d ->
  In f (dc_files d) -> dict_get (index_key (str_in s (dc_ctrl d)) s k) (h5_index (fa_file f)) = Some g ->
  nth_error (fa_tids f) p = Some t -> entry_count g p = Some c ->
  file_count (fa_file f) (str_in s (dc_ctrl d)) s k t c.
Proof.
  intros d s k f p t g c Ho Hg Hf Hgg Hp Hc.
  assert (Hof : opened f) by (rewrite Forall_forall in Ho; auto).
  assert (Hgo : tids_ok (fa_file f)) by (unfold good_files in Hg; rewrite Forall_forall in Hg; auto).
  destruct (@raw_position V f p t Hof Hgo Hp) as (raw & R1 & R2 & R3).
  exists raw, p, g. auto.
Qed.
Lemma file_count_fun : forall (f : h5file V) b s k t c c', file_count f b s k t c -> file_count f b s k t c' -> c = c'.
Proof.
  intros f b s k t c c' (raw & p & g & R1 & R2 & R3 & R4 & R5) (raw' & p' & g' & R1' & R2' & R3' & R4' & R5').
  rewrite R1 in R1'. injection R1' as <-. rewrite R4 in R4'. injection R4' as <-.
  assert (p = p').
  { destruct (Nat.lt_trichotomy p p') as [H|[H|H]]; [|assumption|]; exfalso.
    - exact (R3' _ H R2). - exact (R3 _ H R2'). }
  subst. congruence.
Qed.

Theorem get_data_counts_correct : forall (d : dcoll) s k, reachable d -> distinct_kinds d -> good_files d ->
  In s (dc_inst d) -> readable_index d s k -> check_field d s k = Ok tt ->
  (forall f, In f (dc_files d) -> In s (fa_sources f) -> fa_tids f <> []) ->
  exists ser, get_data_counts d s k = Ok ser /\ NoDup (map fst ser) /\
    forall t c, In (t, c) ser <->
      In t (dc_tids d) /\ exists f, holds d f s t /\ file_count (fa_file f) false s k t c.
Proof.
  intros d s k Hr Hk Hg Hs Hi Hcf Hne. destruct (reachable_inv Hr) as [Hb Ho].
  destruct (inst_not_ctrl Hb Hk Hs) as [Hc Hss].
  set (fs := source_files (dc_files d) s) in *.
  destruct (@mapM_total _ _ (counts_part d s k) fs) as [parts Hparts].
  { intros f Hf. apply source_files_In in Hf as [Hf Hsf].
    destruct (counts_part_spec Hc Hi Hf Hsf) as (counts & E & _). eauto. }
  assert (HF := Hparts). apply mapM_ok_iff in HF.
  assert (HP : forall f P, In f fs -> counts_part d s k f = Ok P ->
     map fst P = fa_tids f /\ forall t c, In (t, c) P <-> In t (fa_tids f) /\ file_count (fa_file f) false s k t c).
  { intros f P Hf E. apply source_files_In in Hf as [Hf Hsf].
    destruct (counts_part_spec Hc Hi Hf Hsf) as (counts & E2 & L & g & Hgg & Hn). rewrite E in E2. injection E2 as ->.
    split; [clear -L; revert counts L; induction (fa_tids f) as [|t l IH]; intros [|c counts] L; simpl in *; try discriminate; [reflexivity|];
            f_equal; apply IH; lia|].
    assert (Hfwd : forall t c p, nth_error (fa_tids f) p = Some t -> nth_error counts p = Some c ->
        file_count (fa_file f) false s k t c).
    { intros t c p H1 H2. rewrite <- Hc. eapply file_count_at; try eassumption.
      - rewrite Hc; exact Hgg.
      - rewrite <- Hn; [exact H2|]. eapply nth_error_Some_lt; eassumption. }
    intros t c. split.
    - intros H. apply In_nth_error in H as [p H]. apply combine_nth_iff in H as [H1 H2].
      split; [eapply nth_error_In; eassumption|]. eauto.
    - intros [Ht Hfc]. apply In_nth_error in Ht as [p Hp].
      destruct (@nth_error_ex _ counts p) as [c' Hc']; [rewrite L; eapply nth_error_Some_lt; eassumption|].
      rewrite (file_count_fun Hfc (Hfwd _ _ _ Hp Hc')). apply (nth_error_In _ p). apply combine_nth_iff. auto. }
  destruct (@sort_parts_total _ (@fst Z Z) parts) as [q Hq].
  { intros P HPin E. destruct (Forall2_In_r HF HPin) as (f & Hf & Hp). subst P.
    destruct (HP f [] Hf Hp) as [X _]. apply source_files_In in Hf as [Hf Hsf]. apply (Hne f Hf Hsf). now rewrite <- X. }
  destruct (sort_parts_ok Hq) as [Hperm _].
  assert (Hq0 : q <> []).
  { intros ->. apply Permutation_nil in Hperm || (apply Permutation_sym in Hperm; apply Permutation_nil in Hperm).
    subst parts. inversion HF as [X|]. apply (source_has_file Hb Hss). unfold fs in X. now rewrite <- X. }
  assert (Hpd : pd_concat q = Ok (List.concat q)) by (destruct q; [congruence|reflexivity]).
  exists (filter (fun p => z_in (fst p) (dc_tids d)) (List.concat q)). split.
  { unfold get_data_counts. rewrite Hcf. simpl. fold fs. rewrite Hparts. simpl. rewrite Hq. simpl. rewrite Hpd. reflexivity. }
  pose proof (@source_files_nodup V d s Hb Ho Hg) as HN. fold fs in HN.
  assert (HNq : NoDup (map fst (List.concat q))).
  { apply Permutation_NoDup with (l := flat_map (@fa_tids V) fs); [|assumption].
    assert (E : flat_map (@fa_tids V) fs = map fst (List.concat parts)).
    { clear -HF HP. induction HF as [|f P fs' parts' Hf HF IH]; simpl; [reflexivity|].
      rewrite map_app, <- IH; [|intros f0 P0 H0; apply HP; now right].
      f_equal. symmetry. apply (HP f P (or_introl eq_refl) Hf). }
    rewrite E. apply Permutation_map. clear -Hperm. induction Hperm; simpl.
    - constructor. - now apply Permutation_app_head.
    - rewrite !app_assoc. apply Permutation_app_tail, Permutation_app_comm.
    - eapply Permutation_trans; eassumption. }
  split.
  { clear -HNq. induction (List.concat q) as [|[t c] l IH]; simpl in *; [constructor|]. inversion HNq; subst.
    destruct (z_in t (dc_tids d)); simpl; [constructor|]; auto.
    intros H. apply H1. apply in_map_iff in H as (x & E & Hx). apply filter_In in Hx as [Hx _].
    rewrite <- E. now apply in_map. }
  intros t c. rewrite filter_In, z_in_iff. simpl. split.
  - intros [Hin Ht]. split; [assumption|]. apply in_concat in Hin as (P & HPq & Hin).
    apply (Permutation_in _ (Permutation_sym Hperm)) in HPq.
    destruct (Forall2_In_r HF HPq) as (f & Hf & Hp). destruct (HP f P Hf Hp) as [_ X]. apply X in Hin as [H1 H2].
    exists f. apply source_files_In in Hf as [Hf Hsf]. split; [split; [assumption|split; assumption]|assumption].
  - intros [Ht (f & (Hf & Hsf & Htf) & Hfc)]. split; [|assumption].
    assert (Hfs : In f fs) by (apply source_files_In; auto).
    destruct (Forall2_In_l HF Hfs) as (P & HPin & Hp). destruct (HP f P Hfs Hp) as [_ X].
    apply in_concat. exists P. split; [eapply Permutation_in; eassumption|]. apply X. auto.
Qed.

Theorem get_data_counts_ctrl : forall (d : dcoll) s k, In s (dc_ctrl d) -> check_field d s k = Ok tt ->
  (exists f, In f (dc_files d) /\ In s (fa_sources f) /\ fa_tids f <> [] /\ fa_tids f <> [1%Z]) ->
  get_data_counts d s k = Err EException.
Proof.
  intros d s k Hs Hcf (f & Hf & Hsf & H1 & H2). unfold get_data_counts. rewrite Hcf. simpl.
  apply str_in_iff in Hs.
  assert (Hfs : In f (source_files (dc_files d) s)) by (apply source_files_In; auto).
  replace (mapM (counts_part d s k) (source_files (dc_files d) s)) with (@Err (list (list (Z * Z))) EException); [reflexivity|].
  assert (Hp : forall f, counts_part d s k f = Err EException \/ exists P, counts_part d s k f = Ok P).
  { intros f'. unfold counts_part. rewrite Hs. destruct (fa_tids f') as [|t [|t' l]]; eauto.
    - destruct t as [|[| |]|]; eauto.
    - destruct t as [|[| |]|]; eauto. }
  assert (Hpf : counts_part d s k f = Err EException).
  { unfold counts_part. rewrite Hs. destruct (fa_tids f) as [|t [|t' l]]; [congruence| |].
    - destruct t as [|[| |]|]; try reflexivity. congruence.
    - destruct t as [|[| |]|]; reflexivity. }
  induction (source_files (dc_files d) s) as [|f0 fs IH]; [destruct Hfs|]. simpl.
  destruct Hfs as [->|Hfs]; [now rewrite Hpf|].
  destruct (Hp f0) as [->|[P ->]]; [reflexivity|]. simpl. rewrite <- (IH Hfs). reflexivity.
Qed.

(** ** get_dask_array *)
(** Rows which get_array repeats (h5py broadcasts a single row) are fewer in the dask array. *)
Theorem dask_rows_or_fewer : forall isz (d : dcoll) s k a rows,
  get_array d s k = Ok a -> get_dask_array isz d s k = Ok rows ->
  rows = la_rows a \/ (List.length rows < List.length (la_rows a))%nat.
Proof.
  intros isz d s k a rows Ha Hd. unfold get_array in Ha. unfold get_dask_array in Hd.
  apply bind_ok in Ha as ([] & _ & Ha). apply bind_ok in Ha as (chs & Hchs & Ha).
  apply bind_ok in Ha as (dss & _ & Ha). apply bind_ok in Ha as (ty & _ & Ha).
  apply bind_ok in Ha as (parts & Hparts & Ha). destruct (Nat.eqb _ _) in Ha; [|discriminate]. injection Ha as <-. simpl.
  rewrite Hchs in Hd. simpl in Hd. apply bind_ok in Hd as (dp & Hdp & Hd).
  assert (Hrows : rows = flat_map snd dp).
  { destruct dp as [|p r]; [discriminate|]. destruct (forallb _ _) in Hd; [|discriminate]. now injection Hd as <-. }
  rewrite Hrows. clear Hd Hrows Hchs. apply mapM_ok_iff in Hparts. apply mapM_ok_iff in Hdp.
  revert dp Hdp. induction Hparts as [|c [ls rs] chs parts Hc H IH]; intros dp Hdp.
  - inversion Hdp; subst. now left.
  - inversion Hdp as [|? [[it dt] vs] ? dp' Hdc Hdp' ]; subst. simpl.
    assert (Hv : vs = rs \/ (List.length vs < List.length rs)%nat).
    { unfold dask_chunk in Hdc. apply bind_ok in Hdc as (ds & Hds & Hdc). apply bind_ok in Hdc as (b & _ & Hdc).
      destruct (_ && _)%bool in Hdc; [discriminate|]. injection Hdc as _ _ <-.
      unfold read_chunk in Hc. destruct (zsum (ch_counts c) =? 0)%Z eqn:E0.
      + injection Hc as <- <-. apply Z.eqb_eq in E0. rewrite E0, Z.add_0_r. unfold ds_slice, zslice. rewrite Z.sub_diag. now left.
      + rewrite Hds in Hc. cbn [bind] in Hc. set (n := zsum (ch_counts c)) in *.
        assert (Hlen : (List.length (ds_slice ds (ch_first c) (ch_first c + n)) <= Z.to_nat n)%nat).
        { unfold ds_slice, zslice. rewrite firstn_length. lia. }
        destruct (_ =? _)%Z eqn:E1 in Hc; [left; now injection Hc as _ <-|]. apply Z.eqb_neq in E1.
        destruct (ds_slice ds _ _) as [|r [|? ?]]; [discriminate| |discriminate]. injection Hc as _ <-.
        right. rewrite repeat_length. simpl in *. lia. }
    destruct (IH _ Hdp') as [->|Hlt], Hv as [->|Hv]; [now left| | |]; right; rewrite !app_length; lia.
Qed.
Lemma dask_block_spec : forall fuel item isz n, (0 <= n)%Z -> (n < 2 ^ Z.of_nat fuel)%Z ->
  exists b, dask_block fuel item isz n = Ok b /\ (b <= n)%Z /\ (1 <= n -> 1 <= b)%Z /\
    ((b <= 1)%Z \/ (nbytes b item isz <= dask_limit)%Z) /\
    (exists j, b = n / 2 ^ Z.of_nat j)%Z /\
    ((nbytes n item isz <= dask_limit)%Z -> b = n).
Proof.
  induction fuel as [|fuel IH]; intros item isz n Hn Hlt; simpl.
  - replace (1 <? n)%Z with false by (symmetry; apply Z.ltb_ge; simpl in Hlt; lia). rewrite andb_false_r.
    exists n. split; [reflexivity|]. repeat split; try lia. exists 0%nat. simpl. now rewrite Z.div_1_r.
  - destruct (_ && _)%bool eqn:E.
    + apply andb_true_iff in E as [E1 E2]. apply Z.ltb_lt in E1, E2.
      destruct (IH item isz (n / 2)%Z) as (b & Hb & B1 & B2 & B3 & (j & Hj) & _).
      { apply Z.div_pos; lia. }
      { rewrite Nat2Z.inj_succ, Z.pow_succ_r in Hlt by lia. apply Z.div_lt_upper_bound; lia. }
      exists b. split; [assumption|].
      assert (n / 2 <= n)%Z by (apply Z.div_le_upper_bound; lia).
      split; [lia|]. split; [intros _; apply B2; apply Z.div_le_lower_bound; lia|]. split; [assumption|]. split; [|lia].
      exists (S j). rewrite Nat2Z.inj_succ, Z.pow_succ_r by lia. rewrite <- Z.div_div by lia. exact Hj.
    + exists n. split; [reflexivity|]. split; [lia|]. split; [auto|]. apply andb_false_iff in E. rewrite !Z.ltb_ge in E.
      split; [destruct E; [right|left]; lia|]. split; [|reflexivity]. exists 0%nat. simpl. now rewrite Z.div_1_r.
Qed.
Lemma dask_fuel_enough : forall n, (0 <= n)%Z -> (n < 2 ^ Z.of_nat (dask_fuel n))%Z.
Proof.
  intros n Hn. unfold dask_fuel. rewrite Nat2Z.inj_succ, Z2Nat.id by apply Z.log2_nonneg.
  destruct (Z.eq_dec n 0) as [->|H]; [simpl; lia|]. apply Z.log2_spec. lia.
Qed.

(** ** get_series *)
Lemma rows_from_zero : forall W (rows : list W) E, contig E -> nonneg_entries E ->
  match E with e :: _ => e_first e = 0%Z | [] => True end ->
  let labels := np_repeat (map fst E) (map e_count E) in
  List.length (firstn (List.length labels) rows) = List.length labels ->
  combine labels (firstn (List.length labels) rows) = flat_map (entry_rows rows) E.
Proof.
  intros W rows E Hc Hn H0 labels HL.
  assert (Hcn : Forall (fun c => 0 <= c)%Z (map e_count E)).
  { apply Forall_map. eapply Forall_impl; [|exact Hn]. simpl; tauto. }
  assert (L : Z.of_nat (List.length labels) = zsum (map e_count E)).
  { apply np_repeat_length; [now rewrite !map_length|assumption]. }
  assert (Z1 : zslice rows 0 (0 + zsum (map e_count E)) = firstn (List.length labels) rows).
  { unfold zslice. rewrite <- L. rewrite Z.add_0_l, Z.sub_0_r, Nat2Z.id. reflexivity. }
  rewrite <- Z1. apply labelled_chunk; try assumption; try lia.
  rewrite Z1, HL. exact L.
Qed.

Lemma np_repeat_In : forall A (vals : list A) counts x, In x (np_repeat vals counts) -> In x vals.
Proof.
  intros A vals counts x H. unfold np_repeat in H. apply in_flat_map in H as ([v c] & H1 & H2).
  apply repeat_spec in H2. simpl in H2. subst. eapply in_combine_l; eassumption.
Qed.
Lemma np_repeat_unique : forall (vals counts : list Z), List.length vals = List.length counts -> NoDup vals ->
  (NoDup (np_repeat vals counts) <-> Forall (fun c => c <= 1)%Z counts).
Proof.
  induction vals as [|v vals IH]; intros [|c counts] L HN; simpl in *; try discriminate.
  - split; constructor.
  - inversion HN; subst. injection L as L. specialize (IH counts L H2). unfold np_repeat in *. simpl. split.
    + intros H. constructor.
      * destruct (Z.leb_spec c 1) as [|Hc]; [assumption|]. exfalso. apply NoDup_app_l in H.
        replace (Z.to_nat c) with (S (S (Z.to_nat (c - 2)))) in H by lia. simpl in H. inversion H; subst. apply H4. now left.
      * apply IH. eapply NoDup_app_r; eassumption.
    + intros H. inversion H; subst. apply NoDup_app_intro; [|now apply IH|].
      * destruct (Z.to_nat c) as [|[|n]] eqn:E; [constructor|repeat constructor; auto|lia].
      * intros x Hx Hx2. apply repeat_spec in Hx. subst. apply H1. exact (np_repeat_In Hx2).
Qed.
Lemma np_repeat_ones : forall A (vals : list A) counts, List.length vals = List.length counts ->
  Forall (fun c => c = 1%Z) counts -> np_repeat vals counts = vals.
Proof.
  induction vals as [|v vals IH]; intros [|c counts] L H; simpl in *; try discriminate; [reflexivity|].
  inversion H; subst. unfold np_repeat in *. simpl. f_equal. apply IH; [lia|assumption].
Qed.
Lemma zslice_map : forall A B (f : A -> B) l a b, zslice (map f l) a b = map f (zslice l a b).
Proof. intros; unfold zslice. now rewrite skipn_map, firstn_map. Qed.

Definition tv (r : Z * option Z * V) : Z * V := (fst (fst r), snd r).
Definition tp (r : Z * option Z * V) : Z * option Z := fst r.

Lemma tv_train_labels : forall tids (data : list V), map tv (combine (train_labels tids) data) = combine tids data.
Proof.
  induction tids as [|t tids IH]; intros [|v data]; simpl; try reflexivity. f_equal. apply IH.
Qed.
Lemma pulse_train_labels : forall tids (data : list V) r, In r (combine (train_labels tids) data) -> snd (fst r) = None.
Proof.
  intros tids data [[t p] v] H. apply in_combine_l in H. unfold train_labels in H. apply in_map_iff in H as (x & E & _).
  simpl. now injection E as _ <-.
Qed.
Lemma tv_pulse_labels : forall tids ps (data : list V), List.length ps = List.length tids ->
  map tv (combine (pulse_labels tids ps) data) = combine tids data.
Proof.
  unfold pulse_labels. induction tids as [|t tids IH]; intros [|p ps] [|v data] L; simpl in *; try discriminate; try reflexivity.
  f_equal. apply IH. lia.
Qed.
Lemma tp_pulse_labels : forall tids ps (data : list V), List.length ps = List.length tids ->
  List.length data = List.length tids ->
  map tp (combine (pulse_labels tids ps) data) = combine tids (map Some ps).
Proof.
  unfold pulse_labels. induction tids as [|t tids IH]; intros [|p ps] [|v data] L L2; simpl in *; try discriminate; try reflexivity.
  f_equal. apply IH; lia.
Qed.

Context (first : V -> V) (pulse : V -> Z).

(** The part of one file holds exactly the entries of the index. *)
Definition part_for (f : faccess) (s k : string) (ds : dataset V) (E : list entry) (P : list (Z * option Z * V)) : Prop :=
  (Forall (fun c => c <= 1)%Z (map e_count E) /\ ds_item ds = [] /\
   map tv P = flat_map (entry_rows (ds_rows ds)) E /\ forall r, In r P -> snd (fst r) = None) \/
  (~ Forall (fun c => c <= 1)%Z (map e_count E) /\ ds_item ds = [1%Z] /\ exists pds,
   dict_get (data_key false s (pulse_key k)) (h5_data (fa_file f)) = Some pds /\
   map tv P = flat_map (entry_rows (map first (ds_rows ds))) E /\
   map tp P = flat_map (entry_rows (map (fun v => Some (pulse v)) (ds_rows pds))) E).

Lemma dots_app : forall a b, dots_to_slashes (a ++ b)%string = (dots_to_slashes a ++ dots_to_slashes b)%string.
Proof. induction a as [|c a IH]; intros b; simpl; [reflexivity|]. now rewrite IH. Qed.
Lemma before_dot_id : forall k, dots_to_slashes (before_dot k) = before_dot k.
Proof.
  induction k as [|c k IH]; simpl; [reflexivity|]. destruct (Ascii.eqb c ".") eqn:E; simpl; [reflexivity|].
  now rewrite E, IH.
Qed.
Lemma pulse_path : forall s k, ("INSTRUMENT/" ++ s ++ "/" ++ key_group k ++ "/pulseId")%string = data_key false s (pulse_key k).
Proof.
  intros s k. unfold data_key, pulse_key. rewrite dots_app, before_dot_id, key_group_before_dot. reflexivity.
Qed.
Lemma pulse_key_group : forall k, before_dot (pulse_key k) = before_dot k.
Proof.
  unfold pulse_key. induction k as [|c k IH]; simpl; [reflexivity|]. destruct (Ascii.eqb c ".") eqn:E; simpl; [reflexivity|].
  now rewrite E, IH.
Qed.
Lemma pulse_index_key : forall s k, index_key false s (pulse_key k) = index_key false s k.
Proof. intros s k. unfold index_key. now rewrite pulse_key_group. Qed.

Lemma series_inst_spec : forall f s k E P, file_ix f s (key_group k) E -> NoDup (fa_tids f) ->
  match E with e :: _ => e_first e = 0%Z | [] => True end ->
  series_inst first pulse s k f = Ok P ->
  exists ds, dict_get (data_key false s k) (h5_data (fa_file f)) = Some ds /\ part_for f s k ds E P.
Proof.
  intros f s k E P (fi & co & Hix & L1 & L2 & HE & Hc & Hn) HN H0 H. unfold series_inst in H.
  rewrite Hix in H. cbn [bind fst snd] in H. rewrite expand_trainids_eq in H by assumption.
  assert (F1 : map fst E = fa_tids f) by (rewrite HE; now apply entries_fst).
  assert (F2 : map e_count E = co) by (rewrite HE; now apply entries_count).
  apply bind_ok in H as (ds & Hds & H). unfold fa_dataset in Hds. rewrite ds_path_inst in Hds.
  destruct (dict_get (data_key false s k) _) as [ds'|] eqn:Ed; [|discriminate]. injection Hds as ->.
  exists ds. split; [reflexivity|].
  set (labels := np_repeat (fa_tids f) co) in *.
  assert (Hlab : labels = np_repeat (map fst E) (map e_count E)) by (unfold labels; now rewrite F1, F2).
  pose proof (np_repeat_unique (eq_sym L2) HN) as Huniq. fold labels in Huniq.
  destruct (z_unique labels) eqn:Eu.
  - left. apply z_unique_iff in Eu. rewrite F2. split; [now apply Huniq|].
    unfold pd_series in H. destruct (ds_item ds) eqn:Ei; [|discriminate]. split; [reflexivity|].
    destruct (Nat.eqb _ _) eqn:El in H; [|discriminate]. injection H as <-. apply Nat.eqb_eq in El.
    unfold train_labels in El. rewrite map_length in El. split.
    + rewrite tv_train_labels. rewrite Hlab in *. apply rows_from_zero; auto.
    + apply pulse_train_labels.
  - right. rewrite F2. split.
    { rewrite <- Huniq. intros X. apply z_unique_iff in X. congruence. }
    apply bind_ok in H as (pds & Hpds & H). rewrite pulse_path in Hpds. unfold fa_dataset in Hpds.
    destruct (dict_get (data_key false s (pulse_key k)) _) as [pds'|]; [|discriminate]. injection Hpds as ->.
    destruct (ds_item pds) as [|m0 [|]]; try discriminate.
    destruct (negb _) eqn:Ep in H; [discriminate|]. apply negb_false_iff, Nat.eqb_eq in Ep.
    destruct (ds_item ds) as [|m rest]; [discriminate|].
    destruct (negb _) eqn:Em in H; [discriminate|]. apply negb_false_iff, Z.eqb_eq in Em. subst m.
    unfold pd_series in H. destruct rest; [|discriminate]. split; [reflexivity|]. exists pds. split; [reflexivity|].
    destruct (Nat.eqb _ _) eqn:El in H; [|discriminate]. injection H as <-. apply Nat.eqb_eq in El.
    unfold pulse_labels in El. rewrite map_length, combine_length, Ep, Nat.min_id in El.
    rewrite map_length in Ep. split.
    + rewrite tv_pulse_labels by (rewrite map_length; exact Ep). rewrite Hlab in *. apply rows_from_zero; auto.
    + rewrite tp_pulse_labels; [|rewrite map_length; exact Ep|auto].
      rewrite map_map, <- firstn_map. rewrite Hlab in *. apply rows_from_zero; auto.
      rewrite firstn_map, map_length. exact Ep.
Qed.

Lemma series_ctrl_spec : forall f s k E P, map fst E = fa_tids f -> contig E -> nonneg_entries E ->
  Forall (fun c => c = 1%Z) (map e_count E) ->
  match E with e :: _ => e_first e = 0%Z | [] => True end ->
  series_ctrl s k f = Ok P ->
  exists ds, dict_get (data_key true s k) (h5_data (fa_file f)) = Some ds /\ part_for f s k ds E P.
Proof.
  intros f s k E P F1 Hc Hn H1 H0 H. unfold series_ctrl in H.
  apply bind_ok in H as (ds & Hds & H). unfold fa_dataset in Hds. rewrite ds_path_ctrl in Hds.
  destruct (dict_get (data_key true s k) _) as [ds'|] eqn:Ed; [|discriminate]. injection Hds as ->.
  exists ds. split; [reflexivity|]. left. split.
  { eapply Forall_impl; [|exact H1]. simpl; intros; lia. }
  assert (Hlab : np_repeat (map fst E) (map e_count E) = fa_tids f).
  { rewrite np_repeat_ones; [assumption|now rewrite !map_length|assumption]. }
  unfold pd_series in H. destruct (ds_item ds) eqn:Ei; [|discriminate]. split; [reflexivity|].
  destruct (Nat.eqb _ _) eqn:El in H; [|discriminate]. injection H as <-. apply Nat.eqb_eq in El.
  unfold train_labels in El. rewrite map_length in El. split.
  - rewrite tv_train_labels. rewrite <- Hlab in *. apply rows_from_zero; auto.
  - apply pulse_train_labels.
Qed.

Lemma filter_map_comm : forall A B (g : A -> B) (p : B -> bool) l, filter p (map g l) = map g (filter (fun x => p (g x)) l).
Proof. intros A B g p; induction l as [|x l IH]; simpl; [reflexivity|]. destruct (p (g x)); simpl; now rewrite IH. Qed.

Lemma series_values_tv : forall t (P : list (Z * option Z * V)),
  series_values t P = map snd (filter (fun p => (fst p =? t)%Z) (map tv P)).
Proof. intros. unfold series_values. rewrite filter_map_comm, map_map. reflexivity. Qed.
Lemma series_pulses_tp : forall t (P : list (Z * option Z * V)),
  series_pulses t P = map snd (filter (fun p => (fst p =? t)%Z) (map tp P)).
Proof. intros. unfold series_pulses. rewrite filter_map_comm, map_map. reflexivity. Qed.

Lemma entry_rows_tid : forall W (rows : list W) E t v, In (t, v) (flat_map (entry_rows rows) E) -> In t (map fst E).
Proof.
  intros W rows E t v H. apply in_flat_map in H as (e & He & H). unfold entry_rows in H.
  apply in_map_iff in H as (x & Ex & _). injection Ex as <- _. now apply in_map.
Qed.
Lemma part_tids : forall f s k ds E P r, part_for f s k ds E P -> In r P -> In (srow_tid r) (map fst E).
Proof.
  intros f s k ds E P r H Hr.
  assert (X : exists rows : list V, map tv P = flat_map (entry_rows rows) E).
  { destruct H as [(_ & _ & H & _)|(_ & _ & pds & _ & H & _)]; eauto. }
  destruct X as [rows X]. apply (in_map tv) in Hr. rewrite X in Hr. destruct r as [[t p] v].
  eapply entry_rows_tid; exact Hr.
Qed.

Theorem get_series_correct : forall (d : dcoll) s k ser, reachable d -> distinct_kinds d -> good_files d ->
  good_index d s k -> index_from_zero d s k -> (In s (dc_ctrl d) -> good_ctrl d s) ->
  get_series first pulse d s k = Ok ser ->
  (forall f t, holds d f s t -> In t (dc_tids d) ->
     exists rows, file_rows (fa_file f) (str_in s (dc_ctrl d)) s k t rows /\
       ((series_values t ser = rows /\ Forall (eq None) (series_pulses t ser) /\
         ~ (In s (dc_inst d) /\ multi_rows f s k)) \/
        (series_values t ser = map first rows /\ In s (dc_inst d) /\ multi_rows f s k /\
         exists prows, file_rows (fa_file f) false s (pulse_key k) t prows /\
                       series_pulses t ser = map (fun v => Some (pulse v)) prows))) /\
  (forall t, ~ (In t (dc_tids d) /\ exists f, holds d f s t) -> series_values t ser = []).
Proof.
  intros d s k ser Hr Hk Hg Hi Hz Hctrl H. destruct (reachable_inv Hr) as [Hb Ho].
  unfold get_series in H. apply bind_ok in H as ([] & Hcf & H).
  pose proof (check_field_source Hcf) as Hs.
  apply bind_ok in H as (parts & Hparts & H). apply bind_ok in H as (q & Hq & H).
  destruct (mixed parts); [discriminate|]. apply bind_ok in H as (cat & Hcat & H). injection H as <-.
  apply pd_concat_ok in Hcat as [_ ->]. destruct (sort_parts_ok Hq) as [Hperm _].
  destruct (@good_index_entries V d s k Hb Hk Hs Hi) as (Ef & HE & HE2).
  pose proof (@source_files_nodup V d s Hb Ho Hg) as HN.
  set (fs := source_files (dc_files d) s) in *.
  (* every part is made of the index entries of its file *)
  assert (HF : Forall2 (fun f P => exists ds, dict_get (data_key (str_in s (dc_ctrl d)) s k) (h5_data (fa_file f)) = Some ds /\
                                   part_for f s k ds (Ef f) P /\
                                   (In s (dc_ctrl d) -> Forall (fun c => c <= 1)%Z (map e_count (Ef f)))) fs parts).
  { assert (Hzero : forall f, In f fs -> match Ef f with e :: _ => e_first e = 0%Z | [] => True end).
    { intros f Hf. destruct (HE2 f Hf) as (Hfst & g & Hgg & Hiff).
      destruct (Ef f) as [|[t [a c]] E] eqn:EE; [exact I|]. unfold e_first; simpl.
      destruct (proj1 (Hiff 0%nat t a c) eq_refl) as (N1 & N2 & _).
      apply source_files_In in Hf as [Hf Hsf]. eapply Hz; try eassumption.
      rewrite <- Hfst. discriminate. }
    destruct (@kind_split V d s Hb Hk Hs) as [(K1 & K2 & Hall)|(K1 & K2 & Hall)]; rewrite K1 in *; try rewrite K2 in *.
    - apply mapM_ok_iff in Hparts. assert (Hsc : In s (dc_ctrl d)) by (now apply str_in_iff).
      assert (Hones : forall f, In f fs -> Forall (fun c => c = 1%Z) (map e_count (Ef f))).
      { intros f Hf. destruct (HE2 f Hf) as (Hfst & g & Hgg & Hiff).
        apply Forall_map, Forall_forall. intros [t [a c]] He. apply In_nth_error in He as [p Hp].
        apply Hiff in Hp as (N1 & _ & N3). apply source_files_In in Hf as [Hf Hsf].
        destruct (Hctrl Hsc f g Hf (proj1 (Hall f Hf Hsf)) Hgg p) as [_ X]; [eapply nth_error_Some_lt; eassumption|].
        unfold e_count; simpl. congruence. }
      assert (G : forall f P, In f fs -> series_ctrl s k f = Ok P -> exists ds, dict_get (data_key true s k) (h5_data (fa_file f)) = Some ds /\
                part_for f s k ds (Ef f) P /\ (In s (dc_ctrl d) -> Forall (fun c => c <= 1)%Z (map e_count (Ef f)))).
      { intros f P Hf HP. destruct (HE f Hf) as (fi & co & _ & L1 & L2 & EE & Hc & Hn).
        destruct (@series_ctrl_spec f s k (Ef f) P (proj1 (HE2 f Hf)) Hc Hn (Hones f Hf) (Hzero f Hf) HP) as (ds & D1 & D2).
        exists ds. split; [assumption|]. split; [assumption|]. intros _.
          eapply Forall_impl; [|exact (Hones f Hf)]. simpl; intros; lia. }
      clear -Hparts G. induction Hparts as [|f P fs parts HP H IH]; constructor.
      + apply G; [now left|assumption].
      + apply IH. intros; apply G; [now right|assumption].
    - apply mapM_ok_iff in Hparts.
      assert (Hns : ~ In s (dc_ctrl d)) by (now apply str_in_false).
      assert (G : forall f P, In f fs -> series_inst first pulse s k f = Ok P -> exists ds, dict_get (data_key false s k) (h5_data (fa_file f)) = Some ds /\
                part_for f s k ds (Ef f) P /\ (In s (dc_ctrl d) -> Forall (fun c => c <= 1)%Z (map e_count (Ef f)))).
      { intros f P Hf HP.
        assert (HNf : NoDup (fa_tids f)) by (apply source_files_In in Hf as [Hf _]; eapply file_nodup; eassumption).
        destruct (@series_inst_spec f s k (Ef f) P (HE f Hf) HNf (Hzero f Hf) HP) as (ds & D1 & D2).
        exists ds. split; [assumption|]. split; [assumption|]. intros X; contradiction. }
      clear -Hparts G. induction Hparts as [|f P fs parts HP H IH]; constructor.
      + apply G; [now left|assumption].
      + apply IH. intros; apply G; [now right|assumption]. }
  assert (HF2 : Forall2 (fun f P => forall r, In r P -> In (@srow_tid V r) (fa_tids f)) fs parts).
  { assert (Hfst : forall f, In f fs -> map fst (Ef f) = fa_tids f) by (intros f Hf; apply HE2; assumption).
    clear -HF Hfst. induction HF as [|f P fs parts (ds & _ & Hp & _) H IH]; constructor.
    - intros r Hr. rewrite <- (Hfst f (or_introl eq_refl)). eapply part_tids; eassumption.
    - apply IH. intros; apply Hfst; now right. }
  split.
  - intros f t (Hf & Hsf & Htf) Ht.
    assert (Hfs : In f fs) by (apply source_files_In; auto).
    destruct (combine_In_ex HF Hfs) as (P & Hin & ds & Hds & Hpart & Hc1).
    destruct (parts_at (dc_tids d) t HF2 HN Hperm) as [HA _]. specialize (HA f P Hin Htf Ht).
    destruct (HE2 f Hfs) as (Hfst & g & Hgg & Hiff).
    assert (HNf : NoDup (map fst (Ef f))) by (rewrite Hfst; eapply file_nodup; eassumption).
    rewrite <- Hfst in Htf. apply in_map_iff in Htf as ([t' [a c]] & Et & He). simpl in Et. subst t'.
    apply In_nth_error in He as He'. destruct He' as [p Hp]. apply Hiff in Hp as (P1 & P2 & P3).
    assert (Hof : opened f) by (rewrite Forall_forall in Ho; auto).
    assert (Hgo : tids_ok (fa_file f)) by (unfold good_files in Hg; rewrite Forall_forall in Hg; auto).
    destruct (@raw_position V f p t Hof Hgo P1) as (raw & R1 & R2 & R3).
    exists (zslice (ds_rows ds) a (a + c)). split.
    { exists raw, p, g, a, c, ds. do 7 (split; [assumption|]). unfold zslice. f_equal. f_equal. lia. }
    assert (Hmulti : In s (dc_inst d) -> (multi_rows f s k <-> ~ Forall (fun c => c <= 1)%Z (map e_count (Ef f)))).
    { intros Hsi. destruct (inst_not_ctrl Hb Hk Hsi) as [Hnc _]. split.
      - intros (t1 & c1 & Ht1 & Hfc & Hgt) Hall. rewrite <- Hfst in Ht1. apply in_map_iff in Ht1 as ([t1' [a1 c1']] & E1 & He1).
        simpl in E1; subst t1'. assert (c1' = c1).
        { apply In_nth_error in He1 as [p1 Hp1]. apply Hiff in Hp1 as (Q1 & Q2 & Q3).
          eapply file_count_fun; [|exact Hfc]. rewrite <- Hnc. eapply file_count_at; eassumption. }
        subst c1'. rewrite Forall_forall in Hall. specialize (Hall c1). apply (in_map e_count) in He1.
        unfold e_count in *; simpl in *. specialize (Hall He1). lia.
      - intros Hno. assert (X : exists e, In e (Ef f) /\ (1 < e_count e)%Z).
        { clear -Hno. induction (Ef f) as [|e E IH]; [exfalso; apply Hno; constructor|].
          destruct (Z.leb_spec (e_count e) 1) as [Hle|Hgt].
          - destruct IH as (x & H1 & H2); [intros X; apply Hno; constructor; assumption|]. exists x. split; [now right|assumption].
          - exists e. split; [now left|assumption]. }
        destruct X as ([t1 [a1 c1]] & He1 & Hgt). unfold e_count in Hgt; simpl in Hgt.
        assert (Ht1 : In t1 (fa_tids f)) by (rewrite <- Hfst; apply (in_map fst) in He1; exact He1).
        apply In_nth_error in He1 as [p1 Hp1]. apply Hiff in Hp1 as (Q1 & Q2 & Q3).
        exists t1, c1. split; [assumption|]. split; [|assumption]. rewrite <- Hnc. eapply file_count_at; eassumption. }
    set (fin := filter (fun r : srow => z_in (srow_tid r) (dc_tids d)) (List.concat q)) in *.
    change (fun r : srow => (srow_tid r =? t)%Z) with (fun r : Z * option Z * V => (fst (fst r) =? t)%Z) in HA.
    assert (SV : series_values t fin = series_values t P) by (unfold series_values; f_equal; exact HA).
    assert (SP : series_pulses t fin = series_pulses t P) by (unfold series_pulses; f_equal; exact HA).
    rewrite SV, SP, series_values_tv, series_pulses_tp.
    destruct Hpart as [(N1 & _ & N2 & N3)|(N1 & _ & pds & Hpds & N2 & N3)].
    + left. rewrite N2. rewrite (@filter_entries_one V (ds_rows ds) t (Ef f) (t, (a, c)) HNf He eq_refl), snd_entry_rows.
      split; [reflexivity|]. split.
      * apply Forall_forall. intros o Ho'. apply in_map_iff in Ho' as ([t1 o1] & <- & Hin1). apply filter_In in Hin1 as [Hin1 _].
        apply in_map_iff in Hin1 as (r & E1 & Hr1). pose proof (N3 r Hr1) as N. unfold tp in E1. rewrite E1 in N. simpl in *. auto.
      * intros [Hsi Hm]. apply (Hmulti Hsi) in Hm. contradiction.
    + right. rewrite N2, N3.
      rewrite (@filter_entries_one V _ t (Ef f) (t, (a, c)) HNf He eq_refl), snd_entry_rows.
      rewrite (@filter_entries_one (option Z) _ t (Ef f) (t, (a, c)) HNf He eq_refl), snd_entry_rows.
      assert (Hsi : In s (dc_inst d)).
      { unfold dc_sources in Hs. apply set_union_In in Hs as [Hs|Hs]; [|assumption]. exfalso. auto. }
      destruct (inst_not_ctrl Hb Hk Hsi) as [Hnc _].
      split; [apply zslice_map|]. split; [assumption|]. split; [now apply (Hmulti Hsi)|].
      exists (zslice (ds_rows pds) a (a + c)). split.
      * exists raw, p, g, a, c, pds. rewrite pulse_index_key. rewrite Hnc in Hgg. do 7 (split; [assumption|]).
        unfold zslice. f_equal. f_equal. lia.
      * apply zslice_map.
  - intros t Hno. unfold series_values.
    destruct (parts_at (dc_tids d) t HF2 HN Hperm) as [_ HA].
    assert (HA' : filter (fun r : Z * option Z * V => (fst (fst r) =? t)%Z)
               (filter (fun r : srow => z_in (srow_tid r) (dc_tids d)) (List.concat q)) = []); [|now rewrite HA'].
    apply HA. intros [Hs1 (f & Hf & Htf)]. apply Hno. split; [assumption|]. exists f.
    apply source_files_In in Hf as [Hf Hsf]. repeat split; assumption.
Qed.

Lemma total_rows : forall W (rows : list W) E, contig E -> nonneg_entries E ->
  match E with e :: _ => e_first e = 0%Z | [] => True end ->
  Forall (fun e => e_first e + e_count e <= Z.of_nat (List.length rows))%Z E ->
  (zsum (map e_count E) <= Z.of_nat (List.length rows))%Z.
Proof.
  intros W rows E Hc Hn H0 Hb. destruct E as [|e E]; [simpl; lia|].
  destruct (@nth_error_ex _ (e :: E) (List.length (e :: E) - 1)) as [el Hel]; [simpl; lia|].
  pose proof (@contig_sum (e :: E) e el Hc eq_refl Hel) as X. rewrite H0 in X.
  apply nth_error_In in Hel. rewrite Forall_forall in Hb. specialize (Hb el Hel). lia.
Qed.

Lemma labels_fit : forall W (rows : list W) E, contig E -> nonneg_entries E ->
  match E with e :: _ => e_first e = 0%Z | [] => True end ->
  Forall (fun e => e_first e + e_count e <= Z.of_nat (List.length rows))%Z E ->
  let labels := np_repeat (map fst E) (map e_count E) in
  List.length (firstn (List.length labels) rows) = List.length labels.
Proof.
  intros W rows E Hc Hn H0 Hb labels. rewrite firstn_length.
  pose proof (total_rows Hc Hn H0 Hb).
  assert (L : Z.of_nat (List.length labels) = zsum (map e_count E)).
  { apply np_repeat_length; [now rewrite !map_length|].
    apply Forall_map. eapply Forall_impl; [|exact Hn]. simpl; tauto. }
  lia.
Qed.

Lemma labels_nonempty : forall E, nonneg_entries E -> (exists e, In e E /\ (0 < e_count e)%Z) ->
  np_repeat (map fst E) (map e_count E) <> [].
Proof.
  intros E Hn (e & He & Hpos) H. unfold np_repeat in H. apply in_split in He as (l1 & l2 & ->).
  rewrite !map_app in H. rewrite combine_app in H by now rewrite !map_length.
  rewrite flat_map_app in H. apply app_eq_nil in H as [_ H]. simpl in H. apply app_eq_nil in H as [H _].
  replace (Z.to_nat (e_count e)) with (S (Z.to_nat (e_count e - 1))) in H by lia. discriminate.
Qed.

Lemma combine_nonempty : forall A B (l : list A) (l' : list B), List.length l = List.length l' -> l <> [] -> combine l l' <> [].
Proof. intros A B [|x l] [|y l'] L H; try discriminate; congruence. Qed.

Lemma multi_iff : forall (d : dcoll) s k f E, Forall opened (dc_files d) -> good_files d -> In f (dc_files d) ->
  str_in s (dc_ctrl d) = false -> map fst E = fa_tids f ->
  (exists g, dict_get (index_key false s k) (h5_index (fa_file f)) = Some g /\
     forall p t a c, nth_error E p = Some (t, (a, c)) <->
      nth_error (fa_tids f) p = Some t /\ nth_error (ix_first g) p = Some a /\ entry_count g p = Some c) ->
  (multi_rows f s k <-> ~ Forall (fun c => c <= 1)%Z (map e_count E)).
Proof.
  intros d s k f E Ho Hg Hf Hnc Hfst (g & Hgg & Hiff). split.
  - intros (t1 & c1 & Ht1 & Hfc & Hgt) Hall. rewrite <- Hfst in Ht1. apply in_map_iff in Ht1 as ([t1' [a1 c1']] & E1 & He1).
    simpl in E1; subst t1'. assert (c1' = c1).
    { apply In_nth_error in He1 as [p1 Hp1]. apply Hiff in Hp1 as (Q1 & Q2 & Q3).
      eapply file_count_fun; [|exact Hfc]. rewrite <- Hnc. eapply file_count_at; try eassumption. now rewrite Hnc. }
    subst c1'. rewrite Forall_forall in Hall. specialize (Hall c1). apply (in_map e_count) in He1.
    unfold e_count in *; simpl in *. specialize (Hall He1). lia.
  - intros Hno. assert (X : exists e, In e E /\ (1 < e_count e)%Z).
    { clear -Hno. induction E as [|e E IH]; [exfalso; apply Hno; constructor|].
      destruct (Z.leb_spec (e_count e) 1) as [Hle|Hgt].
      - destruct IH as (x & H1 & H2); [intros X; apply Hno; constructor; assumption|]. exists x. split; [now right|assumption].
      - exists e. split; [now left|assumption]. }
    destruct X as ([t1 [a1 c1]] & He1 & Hgt). unfold e_count in Hgt; simpl in Hgt.
    assert (Ht1 : In t1 (fa_tids f)) by (rewrite <- Hfst; apply (in_map fst) in He1; exact He1).
    apply In_nth_error in He1 as [p1 Hp1]. apply Hiff in Hp1 as (Q1 & Q2 & Q3).
    exists t1, c1. split; [assumption|]. split; [|assumption]. rewrite <- Hnc. eapply file_count_at; try eassumption. now rewrite Hnc.
Qed.

Theorem get_series_progress : forall (d : dcoll) s k, reachable d -> distinct_kinds d -> good_files d ->
  good_index d s k -> index_from_zero d s k -> (In s (dc_ctrl d) -> good_ctrl d s) -> good_data d s k ->
  check_field d s k = Ok tt -> has_rows d s k ->
  one_value_per_train d s k \/ one_value_per_pulse d s k ->
  exists ser, get_series first pulse d s k = Ok ser.
Proof.
  intros d s k Hr Hk Hg Hi Hz Hctrl Hd Hcf Hrows Hdim. destruct (reachable_inv Hr) as [Hb Ho].
  pose proof (check_field_source Hcf) as Hs. destruct Hd as (dt & it & Hgd).
  destruct (@good_index_entries V d s k Hb Hk Hs Hi) as (Ef & HE & HE2).
  unfold get_series. rewrite Hcf. simpl. set (fs := source_files (dc_files d) s) in *.
  assert (Hzero : forall f, In f fs -> match Ef f with e :: _ => e_first e = 0%Z | [] => True end).
  { intros f Hf. destruct (HE2 f Hf) as (Hfst & g & Hgg & Hiff).
    destruct (Ef f) as [|[t [a c]] E] eqn:EE; [exact I|]. unfold e_first; simpl.
    destruct (proj1 (Hiff 0%nat t a c) eq_refl) as (N1 & N2 & _).
    apply source_files_In in Hf as [Hf Hsf]. eapply Hz; try eassumption. rewrite <- Hfst. discriminate. }
  assert (Hfit : forall f ds (rows : list V), In f fs ->
     dict_get (data_key (str_in s (dc_ctrl d)) s k) (h5_data (fa_file f)) = Some ds -> rows = ds_rows ds ->
     Forall (fun e => e_first e + e_count e <= Z.of_nat (List.length rows))%Z (Ef f)).
  { intros f ds rows Hf Hds ->. destruct (HE2 f Hf) as (Hfst & g & Hgg & Hiff).
    apply source_files_In in Hf as [Hf Hsf]. destruct (Hgd f Hf Hsf) as (ds' & g' & Hds' & _ & _ & Hg' & Hbd).
    rewrite Hds in Hds'. injection Hds' as <-. rewrite Hgg in Hg'. injection Hg' as <-.
    apply Forall_forall. intros [t [a c]] He. apply In_nth_error in He as [p Hp]. apply Hiff in Hp as (N1 & N2 & N3).
    unfold e_first, e_count; simpl. eapply Hbd; try eassumption. eapply nth_error_Some_lt; eassumption. }
  assert (Hlabne : forall f, In f fs -> np_repeat (map fst (Ef f)) (map e_count (Ef f)) <> []).
  { intros f Hf. destruct (HE2 f Hf) as (Hfst & g & Hgg & Hiff). destruct (HE f Hf) as (fi & co & _ & _ & _ & _ & _ & Hn).
    apply labels_nonempty; [assumption|]. assert (Hf' := Hf). apply source_files_In in Hf' as [Hfd Hsf].
    destruct (Hrows f Hfd Hsf) as (t & c & Ht & Hfc & Hpos).
    rewrite <- Hfst in Ht. apply in_map_iff in Ht as ([t' [a c']] & E1 & He). simpl in E1; subst t'.
    exists (t, (a, c')). split; [assumption|]. unfold e_count; simpl. replace c' with c; [assumption|].
    apply In_nth_error in He as [p Hp]. apply Hiff in Hp as (N1 & N2 & N3).
    eapply file_count_fun; [exact Hfc|]. eapply file_count_at; eassumption. }
  (* the parts *)
  assert (Hparts : exists parts,
    (if str_in s (dc_ctrl d) then mapM (series_ctrl s k) fs
     else if str_in s (dc_inst d) then mapM (series_inst first pulse s k) fs else Err EException) = Ok parts /\
    Forall (fun P => P <> []) parts /\
    (Forall (fun P => has_pulse P = false) parts \/ Forall (fun P => has_pulse P = true) parts) /\
    List.length parts = List.length fs).
  { destruct (@kind_split V d s Hb Hk Hs) as [(K1 & K2 & Hall)|(K1 & K2 & Hall)]; rewrite K1, ?K2 in *.
    - assert (Hsc : In s (dc_ctrl d)) by (now apply str_in_iff).
      assert (Hnsi : ~ In s (dc_inst d)) by (now apply str_in_false).
      assert (G : forall f, In f fs -> exists P, series_ctrl s k f = Ok P /\ P <> [] /\ has_pulse P = false).
      { intros f Hf. destruct (HE2 f Hf) as (Hfst & g & Hgg & Hiff). destruct (HE f Hf) as (fi & co & _ & _ & _ & _ & Hc & Hn).
        assert (Hones : Forall (fun c => c = 1%Z) (map e_count (Ef f))).
        { apply Forall_map, Forall_forall. intros [t [a c]] He. apply In_nth_error in He as [p Hp].
          apply Hiff in Hp as (N1 & _ & N3). apply source_files_In in Hf as [Hf Hsf].
          destruct (Hctrl Hsc f g Hf (proj1 (Hall f Hf Hsf)) Hgg p) as [_ X]; [eapply nth_error_Some_lt; eassumption|].
          unfold e_count; simpl. congruence. }
        assert (Hlab : np_repeat (map fst (Ef f)) (map e_count (Ef f)) = fa_tids f).
        { rewrite np_repeat_ones; [assumption|now rewrite !map_length|assumption]. }
        assert (Hf' := Hf). apply source_files_In in Hf' as [Hfd Hsf].
        destruct (Hgd f Hfd Hsf) as (ds & g' & Hds & _).
        pose proof (labels_fit Hc Hn (Hzero f Hf) (Hfit f ds _ Hf Hds eq_refl)) as HL. rewrite Hlab in HL.
        destruct Hdim as [Hdim|[X _]]; [|contradiction]. rewrite <- K1 in Hds. destruct (Hdim f ds Hfd Hsf) as [Hitem _];
          [now rewrite K1 in *|]. rewrite K1 in Hds.
        unfold series_ctrl, fa_dataset. rewrite ds_path_ctrl, Hds. cbn [bind]. unfold pd_series. rewrite Hitem.
        unfold train_labels at 1. rewrite map_length, HL, Nat.eqb_refl. eexists. split; [reflexivity|].
        pose proof (Hlabne f Hf) as Hne. rewrite Hlab in Hne. split.
        - apply combine_nonempty; [unfold train_labels; rewrite map_length; auto|]. destruct (fa_tids f); [congruence|discriminate].
        - destruct (fa_tids f) as [|t l]; [reflexivity|]. simpl. destruct (ds_rows ds); reflexivity. }
      destruct (@mapM_total _ _ (series_ctrl s k) fs) as [parts Hp].
      { intros f Hf. destruct (G f Hf) as (P & HP & _). eauto. }
      exists parts. split; [assumption|]. split; [|split; [left|eapply mapM_length; eassumption]];
        apply mapM_ok_iff in Hp; apply Forall_forall; intros P HP; destruct (Forall2_In_r Hp HP) as (f & Hf & E);
        destruct (G f Hf) as (P' & E' & X1 & X2); rewrite E in E'; injection E' as ->; assumption.
    - assert (Hsi : In s (dc_inst d)) by (now apply str_in_iff).
      assert (G : forall f, In f fs -> exists P, series_inst first pulse s k f = Ok P /\ P <> [] /\
                 (one_value_per_train d s k -> has_pulse P = false) /\ (one_value_per_pulse d s k -> has_pulse P = true)).
      { intros f Hf. destruct (HE2 f Hf) as (Hfst & g & Hgg & Hiff). destruct (HE f Hf) as (fi & co & Hix & L1 & L2 & EE & Hc & Hn).
        assert (Hf' := Hf). apply source_files_In in Hf' as [Hfd Hsf].
        assert (F2 : map e_count (Ef f) = co) by (rewrite EE; now apply entries_count).
        pose proof (@multi_iff d s k f (Ef f) Ho Hg Hfd K1 Hfst (ex_intro _ g (conj Hgg Hiff))) as Hmulti.
        assert (HNf : NoDup (fa_tids f)) by (eapply file_nodup; eassumption).
        pose proof (np_repeat_unique (eq_sym L2) HNf) as Huniq.
        destruct (Hgd f Hfd Hsf) as (ds & g' & Hds & _ & _ & Hg' & _).
        pose proof (labels_fit Hc Hn (Hzero f Hf) (Hfit f ds _ Hf Hds eq_refl)) as HL. cbv zeta in HL.
        pose proof (Hlabne f Hf) as Hne.
        rewrite Hfst, F2 in HL, Hne. rewrite F2 in Hmulti.
        unfold series_inst. rewrite Hix. cbn [bind fst snd]. rewrite expand_trainids_eq by assumption.
        unfold fa_dataset at 1. rewrite ds_path_inst, Hds. cbn [bind].
        set (labels := np_repeat (fa_tids f) co) in *.
        destruct (z_unique labels) eqn:Eu.
        - apply z_unique_iff in Eu. apply Huniq in Eu.
          destruct Hdim as [Hdim|[_ Hdim]].
          2: { exfalso. destruct (Hdim f ds g Hfd Hsf Hds Hgg) as (_ & Hm & _). apply Hmulti in Hm. contradiction. }
          destruct (Hdim f ds Hfd Hsf) as [Hitem _]; [now rewrite K1|].
          unfold pd_series. rewrite Hitem. unfold train_labels at 1. rewrite map_length, HL, Nat.eqb_refl.
          eexists. split; [reflexivity|]. split.
          { apply combine_nonempty; [unfold train_labels; rewrite map_length; auto|]. destruct labels; [congruence|discriminate]. }
          split.
          + intros _. destruct labels as [|t l]; [reflexivity|]. simpl. destruct (ds_rows ds); reflexivity.
          + intros [_ Hdim']. exfalso. destruct (Hdim' f ds g Hfd Hsf Hds Hgg) as (_ & Hm & _). apply Hmulti in Hm. contradiction.
        - assert (Hnu : ~ Forall (fun c => c <= 1)%Z co).
          { intros X. apply Huniq, z_unique_iff in X. congruence. }
          apply Hmulti in Hnu.
          destruct Hdim as [Hdim|[_ Hdim]].
          { exfalso. destruct (Hdim f ds Hfd Hsf) as [_ Hno]; [now rewrite K1|]. apply Hno; auto. }
          destruct (Hdim f ds g Hfd Hsf Hds Hgg) as (Hitem & _ & pds & m & Hpds & Hpit & Hpb).
          rewrite pulse_path. unfold fa_dataset. rewrite Hpds. cbn [bind]. rewrite Hpit.
          assert (HLp : List.length (firstn (List.length labels) (ds_rows pds)) = List.length labels).
          { unfold labels. rewrite <- Hfst, <- F2. apply labels_fit; auto; [exact (Hzero f Hf)|].
            apply Forall_forall. intros [t [a c]] He. apply In_nth_error in He as [p Hp]. apply Hiff in Hp as (N1 & N2 & N3).
            unfold e_first, e_count; simpl. eapply Hpb; try eassumption. eapply nth_error_Some_lt; eassumption. }
          rewrite map_length, HLp, Nat.eqb_refl. cbn [negb]. rewrite Hitem. cbn [Z.eqb Pos.eqb negb].
          unfold pd_series.
          assert (Hpl : List.length (pulse_labels labels (map pulse (firstn (List.length labels) (ds_rows pds)))) = List.length labels).
          { unfold pulse_labels. rewrite map_length, combine_length, map_length, HLp. apply Nat.min_id. }
          rewrite Hpl, firstn_map, map_length, HL, Nat.eqb_refl.
          eexists. split; [reflexivity|]. split.
          { apply combine_nonempty; [rewrite Hpl, map_length; auto|].
            intros X. rewrite X in Hpl. destruct labels; [congruence|discriminate]. }
          split.
          + intros Hdim'. exfalso. destruct (Hdim' f ds Hfd Hsf) as [_ Hno]; [now rewrite K1|]. apply Hno; auto.
          + intros _. destruct labels as [|t l]; [congruence|].
            destruct (ds_rows pds) as [|x xs]; [discriminate|]. destruct (ds_rows ds) as [|y ys]; [discriminate|]. reflexivity. }
      destruct (@mapM_total _ _ (series_inst first pulse s k) fs) as [parts Hp].
      { intros f Hf. destruct (G f Hf) as (P & HP & _). eauto. }
      exists parts. split; [assumption|]. split; [|split; [|eapply mapM_length; eassumption]].
      + apply mapM_ok_iff in Hp. apply Forall_forall; intros P HP. destruct (Forall2_In_r Hp HP) as (f & Hf & E).
        destruct (G f Hf) as (P' & E' & X1 & X2). rewrite E in E'; injection E' as ->; assumption.
      + apply mapM_ok_iff in Hp. destruct Hdim as [Hdim|Hdim]; [left|right]; apply Forall_forall; intros P HP;
        destruct (Forall2_In_r Hp HP) as (f & Hf & E);
        destruct (G f Hf) as (P' & E' & X1 & X2 & X3); rewrite E in E'; injection E' as ->; auto. }
  destruct Hparts as (parts & -> & Hne & Hpul & Hlen). cbn [bind].
  rewrite Forall_forall in Hne.
  destruct (@sort_parts_total _ (@srow_tid V) parts Hne) as [q Hq]. rewrite Hq. cbn [bind].
  assert (Hmix : mixed parts = false).
  { unfold mixed. destruct Hpul as [Hp|Hp].
    - replace (existsb has_pulse parts) with false; [reflexivity|]. symmetry. apply Bool.not_true_iff_false.
      intros X. apply existsb_exists in X as (P & HP & X). rewrite Forall_forall in Hp. rewrite (Hp P HP) in X. discriminate.
    - replace (forallb has_pulse parts) with true; [apply andb_false_r|]. symmetry. apply forallb_forall.
      rewrite Forall_forall in Hp. exact Hp. }
  rewrite Hmix. destruct (sort_parts_ok Hq) as [Hperm _].
  destruct q as [|P q].
  - exfalso. apply Permutation_sym, Permutation_nil in Hperm. subst parts. simpl in Hlen.
    apply (source_has_file Hb Hs). fold fs. destruct fs; [reflexivity|discriminate].
  - cbn [pd_concat bind]. eauto.
Qed.

(** A file without any row for an instrument source: never a result. *)
Theorem get_series_no_rows : forall (d : dcoll) s k f, In s (dc_inst d) -> str_in s (dc_ctrl d) = false ->
  readable_index d s k -> In f (dc_files d) -> In s (fa_sources f) -> Forall opened (dc_files d) -> good_files d ->
  (forall t c, file_count (fa_file f) false s k t c -> c = 0%Z) ->
  forall ser, get_series first pulse d s k <> Ok ser.
Proof.
  intros d s k f Hs Hc Hi Hf Hsf Ho Hg Hno ser H. unfold get_series in H.
  apply bind_ok in H as ([] & _ & H). rewrite Hc in H. apply str_in_iff in Hs. rewrite Hs in H.
  apply bind_ok in H as (parts & Hp & H). apply mapM_ok_iff in Hp.
  assert (Hfs : In f (source_files (dc_files d) s)) by (apply source_files_In; auto).
  destruct (Forall2_In_l Hp Hfs) as (P & HPin & HP).
  assert (P = []).
  { unfold series_inst in HP. destruct (Hi f Hf Hsf) as (g & Hgg & Hok). assert (Hgg' := Hgg). rewrite Hc in Hgg'.
    rewrite <- ix_path_inst in Hgg'.
    destruct (index_read _ _ _ Hgg' Hok) as (firsts & counts & Hix & L1 & L2 & Hn).
    rewrite Hix in HP. cbn [bind fst snd] in HP. rewrite expand_trainids_eq in HP by assumption.
    assert (Hz : np_repeat (fa_tids f) counts = []).
    { unfold np_repeat. apply flat_map_nil. intros [t c] Hin. apply In_nth_error in Hin as [p Hp'].
      apply combine_nth_iff in Hp' as [P1 P2]. simpl. pose proof (nth_error_Some_lt _ _ P1) as Hl.
      destruct (Hn p Hl) as [_ N2]. rewrite P2 in N2.
      rewrite (Hno t c); [reflexivity|]. rewrite <- Hc. eapply file_count_at; eauto. }
    rewrite Hz in HP. simpl in HP. apply bind_ok in HP as (ds & _ & HP). unfold pd_series in HP.
    destruct (ds_item ds); [|discriminate]. simpl in HP. now injection HP as <-. }
  subst P. apply bind_ok in H as (q & Hq & _). rewrite sort_parts_empty in Hq by assumption. discriminate.
Qed.

(** ** get_dask_array gives a result *)
Lemma file_chunks_nonempty : forall sel (f : faccess) s g E chs c, file_ix f s g E ->
  (exists t, In t (fa_tids f) /\ In t sel) -> (forall e, In e E -> In (fst e) sel -> 0 < e_count e)%Z ->
  file_chunks sel s g f = Ok chs -> In c chs -> (0 < zsum (ch_counts c))%Z.
Proof.
  intros sel f s g E chs c (fi & co & Hix & L1 & L2 & HE & Hc & Hn) (t & Ht & Hts) Hpos H Hcin.
  unfold file_chunks in H. rewrite Hix in H. cbn [bind] in H.
  destruct (@contiguous_regions_correct (np_isin (fa_tids f) sel)) as (rs & Hrs & Hmax).
  { unfold np_isin. destruct (fa_tids f); [destruct Ht|discriminate]. }
  rewrite Hrs in H. cbn [bind] in H.
  destruct rs as [|r0 rs0].
  - exfalso. destruct Hmax as (Hm & _). apply In_nth_error in Ht as [i Hti].
    destruct (proj1 (Hm i)) as (a & b & [] & _). unfold np_isin. rewrite nth_error_map, Hti. simpl. f_equal. now apply z_in_iff.
  - set (rs := r0 :: rs0) in *. apply mapM_ok_iff in H. destruct (Forall2_In_r H Hcin) as ([a b] & Hab & Hch).
    apply bind_ok in Hch as (first' & _ & Hch). injection Hch as <-. simpl.
    destruct (@regions_bound _ _ a b Hmax Hab) as [B1 B2]. unfold np_isin in B2. rewrite map_length in B2.
    assert (Hall : forall x, In x (nslice co a b) -> (0 < x)%Z).
    { intros x Hx. apply In_nth_error in Hx as [j Hj]. rewrite nslice_nth in Hj.
      destruct (Nat.ltb_spec j (b - a)) as [Hjb|]; [|discriminate].
      destruct (@nth_error_ex _ (fa_tids f) (a + j)) as [t' Ht']; [lia|].
      destruct (@nth_error_ex _ fi (a + j)) as [y Hy]; [lia|].
      assert (He : nth_error E (a + j) = Some (t', (y, x))) by (rewrite HE; apply entries_nth; auto).
      apply (Hpos _ (nth_error_In _ _ He)). simpl.
      destruct Hmax as (Hm & _). assert (X : nth_error (np_isin (fa_tids f) sel) (a + j) = Some true).
      { apply Hm. exists a, b. split; [assumption|lia]. }
      unfold np_isin in X. rewrite nth_error_map, Ht' in X. simpl in X. apply z_in_iff. congruence. }
    destruct (nslice co a b) as [|x l] eqn:En.
    + exfalso. apply (f_equal (@List.length Z)) in En. unfold nslice in En. rewrite firstn_length, skipn_length in En. simpl in En. lia.
    + simpl. assert (0 <= zsum l)%Z.
      { apply zsum_nonneg. apply Forall_forall. intros y Hy. assert (0 < y)%Z by (apply Hall; now right). lia. }
      specialize (Hall x (or_introl eq_refl)). lia.
Qed.

Theorem dask_same_rows : forall isz (d : dcoll) s k a rows,
  reachable d -> distinct_kinds d -> good_index d s k ->
  get_array d s k = Ok a -> get_dask_array isz d s k = Ok rows -> rows = la_rows a.
Proof.
  intros isz d s k a rows Hr Hk Hi Ha Hd. pose proof (get_array_source _ _ _ Ha) as Hs. destruct (reachable_inv Hr) as [Hb _].
  unfold get_array in Ha. unfold get_dask_array in Hd.
  apply bind_ok in Ha as ([] & _ & Ha). apply bind_ok in Ha as (chs & Hchs & Ha).
  apply bind_ok in Ha as (dss & _ & Ha). apply bind_ok in Ha as (ty & _ & Ha).
  apply bind_ok in Ha as (parts & Hparts & Ha). destruct (Nat.eqb _ _) in Ha; [|discriminate]. injection Ha as <-. simpl.
  pose proof (fun c ds => @sorted_chunks_full V d s k chs c ds Hb Hk Hs Hi Hchs) as Hfull.
  rewrite Hchs in Hd. simpl in Hd. apply bind_ok in Hd as (dp & Hdp & Hd).
  assert (Hrows : rows = flat_map snd dp).
  { destruct dp as [|p r]; [discriminate|]. destruct (forallb _ _) in Hd; [|discriminate]. now injection Hd as <-. }
  rewrite Hrows. clear Hd Hrows Hchs. apply mapM_ok_iff in Hparts. apply mapM_ok_iff in Hdp.
  revert dp Hdp Hfull. induction Hparts as [|c [ls rs] chs parts Hc H IH]; intros dp Hdp Hfull.
  - inversion Hdp; subst. reflexivity.
  - inversion Hdp as [|? [[it dt] vs] ? dp' Hdc Hdp' ]; subst. simpl. rewrite (IH _ Hdp') by (intros; apply Hfull; auto; now right). f_equal.
    unfold dask_chunk in Hdc. apply bind_ok in Hdc as (ds & Hds & Hdc). apply bind_ok in Hdc as (b & _ & Hdc).
    destruct (_ && _)%bool in Hdc; [discriminate|]. injection Hdc as _ _ <-.
    unfold read_chunk in Hc. destruct (_ =? 0)%Z eqn:E0.
    + injection Hc as <- <-. apply Z.eqb_eq in E0. rewrite E0, Z.add_0_r. unfold ds_slice, zslice. rewrite Z.sub_diag. reflexivity.
    + apply Z.eqb_neq in E0. rewrite Hds in Hc. cbn [bind] in Hc.
      rewrite (Hfull c ds (or_introl eq_refl) Hds E0), Z.eqb_refl in Hc. now injection Hc as _ <-.
Qed.

Theorem dask_progress : forall isz (d : dcoll) s k a, reachable d -> distinct_kinds d -> good_files d ->
  good_index d s k -> get_array d s k = Ok a ->
  (forall f, In f (dc_files d) -> In s (fa_sources f) -> exists t, In t (fa_tids f) /\ In t (dc_tids d)) ->
  (forall f t c, holds d f s t -> In t (dc_tids d) -> file_count (fa_file f) (str_in s (dc_ctrl d)) s k t c -> (0 < c)%Z) ->
  exists rows, get_dask_array isz d s k = Ok rows.
Proof.
  intros isz d s k a Hr Hk Hg Hi Ha Hsel Hpos. destruct (reachable_inv Hr) as [Hb Ho].
  pose proof (get_array_source _ _ _ Ha) as Hs.
  destruct (@good_index_entries V d s k Hb Hk Hs Hi) as (Ef & HE & HE2).
  unfold get_array in Ha. apply bind_ok in Ha as ([] & _ & Ha). apply bind_ok in Ha as (chs & Hchs & Ha).
  apply bind_ok in Ha as (dss & Hdss & Ha). apply bind_ok in Ha as (ty & Hty & Ha).
  unfold get_dask_array. rewrite Hchs. cbn [bind].
  assert (Hc : forall c, In c chs -> (0 < zsum (ch_counts c))%Z).
  { unfold sorted_chunks in Hchs. apply bind_ok in Hchs as (l & Hl & Hchs). injection Hchs as <-.
    unfold find_data_chunks in Hl. apply bind_ok in Hl as (lch & Hlch & Hl). injection Hl as <-.
    intros c Hcin. apply (Permutation_in _ (Permutation_sym (sort_key_perm (@chunk_key V) _))) in Hcin.
    apply in_concat in Hcin as (cf & Hcf & Hcin). apply mapM_ok_iff in Hlch.
    destruct (Forall2_In_r Hlch Hcf) as (f & Hf & Hfc).
    destruct (HE2 f Hf) as (Hfst & g & Hgg & Hiff).
    assert (Hf' := Hf). apply source_files_In in Hf' as [Hfd Hsf].
    eapply file_chunks_nonempty; [exact (HE f Hf)|now apply Hsel| |exact Hfc|exact Hcin].
    intros [t [x n]] He Htsel. simpl in Htsel. unfold e_count; simpl.
    assert (Htf : In t (fa_tids f)) by (rewrite <- Hfst; apply (in_map fst) in He; exact He).
    apply In_nth_error in He as [p Hp]. apply Hiff in Hp as (N1 & N2 & N3).
    eapply Hpos; [split; [exact Hfd|split; [exact Hsf|exact Htf]]|assumption|].
    eapply file_count_at; eassumption. }
  apply mapM_ok_iff in Hdss.
  destruct (@mapM_total _ _ (dask_chunk isz s k) chs) as [parts Hparts].
  { intros c Hcin. destruct (Forall2_In_l Hdss Hcin) as (ds & _ & Hds). unfold dask_chunk. rewrite Hds. cbn [bind].
    specialize (Hc c Hcin).
    destruct (@dask_block_spec (dask_fuel (zsum (ch_counts c))) (ds_item ds) (isz (ds_dtype ds)) (zsum (ch_counts c)))
      as (b & Eb & _ & B2 & _); [lia|apply dask_fuel_enough; lia|].
    rewrite Eb. cbn [bind]. replace (b =? 0)%Z with false by (symmetry; apply Z.eqb_neq; lia). simpl. eauto. }
  rewrite Hparts. cbn [bind].
  assert (Hitem : Forall2 (fun ds p => ds_item ds = fst (fst p)) dss parts).
  { apply mapM_ok_iff in Hparts. clear -Hdss Hparts. revert parts Hparts. induction Hdss as [|c ds chs dss Hds H IH]; intros parts Hp;
      inversion Hp as [|? ? ? ? H3 H4]; subst; constructor; [|auto].
    unfold dask_chunk in H3. rewrite Hds in H3. cbn [bind] in H3. apply bind_ok in H3 as (b & _ & H3).
    destruct (_ && _)%bool in H3; [discriminate|]. now injection H3 as <-. }
  destruct Hitem as [|ds p dss parts Hi1 Hitem]; [discriminate|].
  unfold common_type in Hty. destruct (negb _) eqn:E in Hty; [discriminate|]. apply negb_false_iff in E.
  replace (forallb _ parts) with true; [eauto|]. symmetry. apply forallb_forall. intros q Hq.
  destruct (Forall2_In_r Hitem Hq) as (ds' & Hds' & E'). rewrite forallb_forall in E. specialize (E ds' Hds').
  unfold zlist_eqb in *. rewrite <- Hi1, <- E'. exact E.
Qed.
End S.
