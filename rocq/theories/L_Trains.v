(** Data by train: train_from_id, trains(), require_all. *)
From Verif Require Import Base PyStr M_Files M_Machinery M_Reader M_Glob M_Select S_Reader S_Coll
  L_Base L_Machinery L_Reader L_GetArray L_Select L_Array2.
Set Implicit Arguments.
Unset Strict Implicit.
Local Open Scope string_scope.
Local Open Scope list_scope.

Section T.
Context {V : Type}.
Notation faccess := (faccess V).
Notation dcoll := (dcoll V).

(** ** Finding the file of a train *)
Lemma tid_positions_spec : forall (f : faccess) t p r, tid_positions f t = p :: r ->
  nth_error (fa_tids f) p = Some t.
Proof.
  intros f t p r H. unfold tid_positions in H.
  assert (In p (nonzero (map (fun x => (x =? t)%Z) (fa_tids f)))) by (rewrite H; now left).
  apply nonzero_spec in H0. rewrite nth_error_map in H0.
  destruct (nth_error (fa_tids f) p) as [x|]; [|discriminate]. simpl in H0. injection H0 as H0.
  apply Z.eqb_eq in H0. now subst.
Qed.
Lemma tid_positions_nil : forall (f : faccess) t, tid_positions f t = [] <-> ~ In t (fa_tids f).
Proof.
  intros f t. unfold tid_positions. split.
  - intros H Hin. apply In_nth_error in Hin as [p Hp].
    assert (X : In p (nonzero (map (fun x => (x =? t)%Z) (fa_tids f)))).
    { apply nonzero_spec. rewrite nth_error_map, Hp. simpl. now rewrite Z.eqb_refl. }
    rewrite H in X. destruct X.
  - intros H. destruct (nonzero _) as [|p r] eqn:E; [reflexivity|]. exfalso. apply H.
    eapply nth_error_In. eapply tid_positions_spec. exact E.
Qed.

Lemma find_in_files_some : forall (fs : list faccess) t f p, find_in_files fs t = Some (f, p) ->
  In f fs /\ nth_error (fa_tids f) p = Some t /\ exists r, tid_positions f t = p :: r.
Proof.
  induction fs as [|f0 fs IH]; intros t f p H; simpl in H; [discriminate|].
  destruct (tid_positions f0 t) as [|p0 r] eqn:E.
  - destruct (IH _ _ _ H) as (H1 & H2 & H3). split; [now right|auto].
  - injection H as -> ->. split; [now left|]. split; [eapply tid_positions_spec; eassumption|eauto].
Qed.
Lemma find_in_files_none : forall (fs : list faccess) t, find_in_files fs t = None <->
  forall f, In f fs -> ~ In t (fa_tids f).
Proof.
  induction fs as [|f0 fs IH]; intros t; simpl; [split; [intros _ f []|auto]|].
  destruct (tid_positions f0 t) as [|p0 r] eqn:E.
  - rewrite IH. split.
    + intros H f [<-|Hf]; [now apply tid_positions_nil|auto].
    + intros H f Hf; apply H; now right.
  - split; [discriminate|]. intros H. exfalso. apply (H f0 (or_introl eq_refl)).
    eapply nth_error_In, tid_positions_spec; eassumption.
Qed.

Lemma flat_unique : forall A (h : A -> list Z) l x y t, NoDup (flat_map h l) ->
  In x l -> In y l -> In t (h x) -> In t (h y) -> x = y.
Proof.
  intros A h; induction l as [|a l IH]; intros x y t HN Hx Hy Htx Hty; [destruct Hx|]. simpl in HN.
  destruct Hx as [->|Hx], Hy as [->|Hy].
  - reflexivity.
  - exfalso. eapply NoDup_app_disjoint; [exact HN|exact Htx|]. apply in_flat_map; eauto.
  - exfalso. eapply NoDup_app_disjoint; [exact HN|exact Hty|]. apply in_flat_map; eauto.
  - eapply IH; try eassumption. eapply NoDup_app_r; eassumption.
Qed.

Lemma holds_unique : forall (d : dcoll) s t f f', built d -> Forall opened (dc_files d) -> good_files d ->
  holds d f s t -> holds d f' s t -> f = f'.
Proof.
  intros d s t f f' Hb Ho Hg (H1 & H2 & H3) (H1' & H2' & H3').
  eapply flat_unique with (h := @fa_tids V); [eapply source_files_nodup with (s := s); eassumption| | |exact H3|exact H3'];
    apply source_files_In; auto.
Qed.

Lemma find_data_holds : forall (d : dcoll) s t f p, find_data d s t = Some (f, p) ->
  holds d f s t /\ nth_error (fa_tids f) p = Some t /\ exists r, tid_positions f t = p :: r.
Proof.
  intros d s t f p H. unfold find_data in H. apply find_in_files_some in H as (H1 & H2 & H3).
  apply source_files_In in H1 as [H1 H1']. split; [|auto]. split; [assumption|]. split; [assumption|].
  eapply nth_error_In; eassumption.
Qed.
Lemma find_data_none : forall (d : dcoll) s t, find_data d s t = None <-> forall f, ~ holds d f s t.
Proof.
  intros d s t. unfold find_data. rewrite find_in_files_none. split.
  - intros H f (H1 & H2 & H3). apply (H f); [apply source_files_In; auto|assumption].
  - intros H f Hf Ht. apply source_files_In in Hf as [Hf Hs]. apply (H f). repeat split; assumption.
Qed.
Lemma find_data_some : forall (d : dcoll) s t f, built d -> Forall opened (dc_files d) -> good_files d ->
  holds d f s t -> exists p, find_data d s t = Some (f, p).
Proof.
  intros d s t f Hb Ho Hg Hf. destruct (find_data d s t) as [[f' p]|] eqn:E.
  - exists p. apply find_data_holds in E as (Hf' & _). f_equal. f_equal. eapply holds_unique; eassumption.
  - rewrite find_data_none in E. exfalso. exact (E f Hf).
Qed.

(** ** The value of one key *)
Lemma good_row : forall (d : dcoll) s k f p t,
  reachable d -> distinct_kinds d -> good_files d -> In s (dc_sources d) ->
  readable_index d s k -> good_data d s k ->
  In f (dc_files d) -> In s (fa_sources f) -> nth_error (fa_tids f) p = Some t ->
  exists ds firsts counts a c,
    fa_get_index f s (if str_in s (dc_ctrl d) then "" else key_group k) = Ok (firsts, counts) /\
    nth_error firsts p = Some a /\ nth_error counts p = Some c /\ (0 <= a)%Z /\ (0 <= c)%Z /\
    (a + c <= Z.of_nat (List.length (ds_rows ds)))%Z /\
    fa_dataset f (data_key (str_in s (dc_ctrl d)) s k) = Ok ds /\
    file_rows (fa_file f) (str_in s (dc_ctrl d)) s k t (zslice (ds_rows ds) a (a + c)) /\
    exists g, dict_get (index_key (str_in s (dc_ctrl d)) s k) (h5_index (fa_file f)) = Some g /\
              nth_error (ix_first g) p = Some a /\ entry_count g p = Some c.
Proof.
  intros d s k f p t Hr Hk Hg Hs Hgi (dt & it & Hgd) Hf Hsf Hp.
  destruct (reachable_inv Hr) as [Hb Ho].
  destruct (Hgi f Hf Hsf) as (g & Hgg & Hok). destruct (Hgd f Hf Hsf) as (ds & g' & Hds & _ & _ & Hg' & Hbd).
  rewrite Hgg in Hg'. injection Hg' as <-.
  assert (Hpath : ix_path s (if str_in s (dc_ctrl d) then "" else key_group k) =
                  index_key (str_in s (dc_ctrl d)) s k).
  { destruct (str_in s (dc_ctrl d)); [reflexivity|apply ix_path_inst]. }
  assert (Hgg' := Hgg). rewrite <- Hpath in Hgg'.
  destruct (index_read _ _ _ Hgg' Hok) as (firsts & counts & Hix & L1 & L2 & Hn).
  pose proof (nth_error_Some_lt _ _ Hp) as Hl. destruct (Hn p Hl) as [N1 N2].
  destruct Hok as (_ & Hex). destruct (Hex p Hl) as (a & c & Ha & Hc & Ha0 & Hcr).
  exists ds, firsts, counts, a, c. unfold u64_range in Hcr.
  assert (Hof : opened f) by (rewrite Forall_forall in Ho; auto).
  assert (Hgo : tids_ok (fa_file f)) by (unfold good_files in Hg; rewrite Forall_forall in Hg; auto).
  destruct (@raw_position V f p t Hof Hgo Hp) as (raw & R1 & R2 & R3).
  split; [assumption|]. split; [congruence|]. split; [congruence|]. split; [assumption|]. split; [lia|].
  split; [eapply Hbd; eassumption|]. split; [unfold fa_dataset; now rewrite Hds|]. split.
  - exists raw, p, g, a, c, ds. do 7 (split; [assumption|]). unfold zslice. f_equal. f_equal. lia.
  - exists g; auto.
Qed.

Lemma slice_one : forall (rows : list V) a, (0 <= a)%Z -> (a + 1 <= Z.of_nat (List.length rows))%Z ->
  exists v, nth_error rows (Z.to_nat a) = Some v /\ zslice rows a (a + 1) = [v].
Proof.
  intros rows a Ha Hl. assert (exists v, nth_error rows (Z.to_nat a) = Some v) as [v Hv] by (apply nth_error_ex; lia).
  exists v. split; [assumption|]. unfold zslice. replace (Z.to_nat (a + 1 - a)) with 1%nat by lia.
  pose proof (nth_error_skipn (Z.to_nat a) rows 0) as N. rewrite Nat.add_0_r, Hv in N.
  destruct (skipn _ rows); [discriminate|]. simpl in *. congruence.
Qed.

Lemma inst_key_value : forall (d : dcoll) s k f p t,
  reachable d -> distinct_kinds d -> good_files d -> In s (dc_inst d) ->
  readable_index d s k -> good_data d s k ->
  In f (dc_files d) -> In s (fa_sources f) -> nth_error (fa_tids f) p = Some t ->
  exists rows, file_rows (fa_file f) false s k t rows /\ inst_key f p s k = Ok (value_of rows) /\
    exists ds, fa_dataset f (ds_path "INSTRUMENT" s k) = Ok ds /\
               it_inst_val s k (Some (f, p, ds)) = Ok (value_it rows).
Proof.
  intros d s k f p t Hr Hk Hg Hs Hgi Hgd Hf Hsf Hp.
  destruct (reachable_inv Hr) as [Hb Ho].
  assert (Hss : In s (dc_sources d)) by (apply set_union_In; now right).
  destruct (good_row Hr Hk Hg Hss Hgi Hgd Hf Hsf Hp)
    as (ds & firsts & counts & a & c & Hix & Ha & Hc & Ha0 & Hc0 & Hbd & Hds & Hrows & _).
  assert (Hc' : str_in s (dc_ctrl d) = false).
  { destruct (kind_split _ Hb Hk Hss) as [(_ & X & _)|(X & _)]; [|exact X].
    apply str_in_false in X. contradiction. }
  rewrite Hc' in *. rewrite <- ds_path_inst in Hds.
  exists (zslice (ds_rows ds) a (a + c)). split; [assumption|].
  unfold inst_key, it_inst_val. rewrite Hix. simpl. unfold nth_res. rewrite Ha, Hc. simpl.
  pose proof (zslice_length Ha0 Hc0 Hbd) as HL.
  destruct (c =? 0)%Z eqn:E0.
  - apply Z.eqb_eq in E0. subst c. replace (0 =? 1)%Z with false by reflexivity.
    destruct (zslice (ds_rows ds) a (a + 0)) as [|v r] eqn:Ez; [|simpl in HL; lia].
    split; [reflexivity|]. exists ds. split; [assumption|]. unfold ds_slice. now rewrite Ez.
  - rewrite Hds. simpl. destruct (c =? 1)%Z eqn:E1.
    + apply Z.eqb_eq in E1. subst c. destruct (slice_one Ha0 Hbd) as (v & Hv & ->).
      unfold ds_at. rewrite Hv. simpl. split; [reflexivity|]. exists ds. split; [reflexivity|]. now rewrite Hv.
    + apply Z.eqb_neq in E0, E1. unfold ds_slice.
      destruct (zslice (ds_rows ds) a (a + c)) as [|v [|v' r]] eqn:Ez; [simpl in HL; lia|simpl in HL; lia|].
      split; [reflexivity|]. exists ds. split; [reflexivity|]. now rewrite Ez.
Qed.

Lemma ctrl_key_value : forall (d : dcoll) s k f p t,
  reachable d -> distinct_kinds d -> good_files d -> In s (dc_ctrl d) -> good_ctrl d s ->
  readable_index d s k -> good_data d s k ->
  In f (dc_files d) -> In s (fa_sources f) -> nth_error (fa_tids f) p = Some t ->
  exists v, file_rows (fa_file f) true s k t [v] /\ ctrl_key f p s k = Ok (One v) /\
    exists ds, fa_dataset f (ds_path "CONTROL" s k) = Ok ds /\
               it_ctrl_val (Some (f, p, ds)) = Ok (Some (One v)).
Proof.
  intros d s k f p t Hr Hk Hg Hs Hgc Hgi Hgd Hf Hsf Hp.
  destruct (reachable_inv Hr) as [Hb Ho].
  assert (Hss : In s (dc_sources d)) by (apply set_union_In; now left).
  destruct (good_row Hr Hk Hg Hss Hgi Hgd Hf Hsf Hp)
    as (ds & firsts & counts & a & c & Hix & Ha & Hc & Ha0 & Hc0 & Hbd & Hds & Hrows & g & Hgg & G1 & G2).
  assert (Hc' : str_in s (dc_ctrl d) = true) by now apply str_in_iff.
  rewrite Hc' in *. rewrite <- ds_path_ctrl in Hds. simpl in Hgg.
  assert (Hsc : In s (fa_ctrl f)).
  { destruct (kind_split _ Hb Hk Hss) as [(_ & _ & X)|(X & _)]; [|congruence]. now apply X. }
  pose proof (nth_error_Some_lt _ _ Hp) as Hl.
  destruct (Hgc f g Hf Hsc Hgg p Hl) as [G3 G4]. rewrite G1 in G3; rewrite G2 in G4.
  injection G3 as ->. injection G4 as ->.
  destruct (slice_one Ha0 Hbd) as (v & Hv & Hsl). rewrite Hsl in Hrows. exists v. split; [assumption|].
  unfold ctrl_key, it_ctrl_val. rewrite Hds. simpl. unfold ds_at. rewrite Hv. simpl.
  split; [reflexivity|]. exists ds. split; [reflexivity|]. now rewrite Hv.
Qed.

Lemma keys_for_source_ok : forall (d : dcoll) s, built d -> In s (dc_sources d) ->
  exists ks, keys_for_source d s = Ok ks.
Proof.
  intros d s (_ & Hc & Hi) Hs. unfold dc_sources in Hs. apply set_union_In in Hs.
  assert (exists f, In f (dc_files d) /\ In s (fa_sources f) /\ In s (dict_keys (dc_sel d))) as (f & Hf & Hsf & Hsel).
  { destruct Hs as [Hs|Hs]; [apply Hc in Hs|apply Hi in Hs]; destruct Hs as (f & H1 & H2 & H3); exists f;
      (split; [assumption|]; split; [apply fa_sources_In; auto|assumption]). }
  unfold keys_for_source. apply dict_get_keys in Hsel as [o ->]. destruct o as [ks|]; [eauto|].
  assert (Hin : In f (source_files (dc_files d) s)) by (apply source_files_In; auto).
  destruct (source_files (dc_files d) s) as [|f0 fs] eqn:E; [destruct Hin|].
  assert (Hf0 : In f0 (source_files (dc_files d) s)) by (rewrite E; now left).
  apply source_files_In in Hf0 as [_ Hf0]. apply fa_sources_In in Hf0.
  unfold fa_get_keys. destruct (str_in s (fa_ctrl f0)) eqn:E1; [eauto|].
  destruct Hf0 as [H|H]; [apply str_in_false in E1; contradiction|].
  apply str_in_iff in H. rewrite H. eauto.
Qed.

Lemma collect_keys_ok : forall (g : string -> res (option (tval V))) (h : string -> option (tval V)) ks,
  (forall k, In k ks -> g k = Ok (h k)) ->
  exists kv, collect_keys g ks = Ok kv /\
    (forall k, In k ks -> dict_get k kv = h k) /\ (forall k, ~ In k ks -> dict_get k kv = None).
Proof.
  intros g h; induction ks as [|k0 ks IH]; intros H; simpl.
  - exists []. split; [reflexivity|]. split; [intros k []|reflexivity].
  - destruct IH as (kv & Hkv & H1 & H2); [intros; apply H; now right|].
    rewrite (H k0 (or_introl eq_refl)), Hkv. simpl. eexists; split; [reflexivity|].
    split.
    + intros k Hk. destruct (string_dec k k0) as [->|Hne].
      * destruct (h k0) eqn:E; simpl; [now rewrite String.eqb_refl|].
        destruct (in_dec string_dec k0 ks) as [Hin|Hin]; [rewrite H1; assumption|now apply H2].
      * destruct Hk as [->|Hk]; [congruence|]. apply String.eqb_neq in Hne.
        destruct (h k0); simpl; rewrite ?Hne; now apply H1.
    + intros k Hk. simpl in Hk.
      assert (k <> k0) by (intros ->; apply Hk; now left). apply String.eqb_neq in H0.
      destruct (h k0); simpl; rewrite ?H0; apply H2; tauto.
Qed.

Lemma ctrl_source_view : forall (d : dcoll) t s, reachable d -> good_collection d -> In s (dc_ctrl d) ->
  exists sd, ctrl_source_data d t s = Ok sd /\ source_view value_of d t s sd.
Proof.
  intros d t s Hr (Hk & Hg & Hgc & Hgk) Hs. destruct (reachable_inv Hr) as [Hb Ho].
  assert (Hss : In s (dc_sources d)) by (apply set_union_In; now left).
  destruct (keys_for_source_ok Hb Hss) as [ks Hks].
  unfold ctrl_source_data. destruct (find_data d s t) as [[f p]|] eqn:E.
  - apply find_data_holds in E as (Hh & Hp & _). rewrite Hks. simpl.
    destruct Hh as (Hf & Hsf & Ht).
    set (h := fun k => match ctrl_key f p s k with Ok v => Some v | Err _ => None end).
    assert (Hval : forall k, In k ks -> exists v, file_rows (fa_file f) true s k t [v] /\ ctrl_key f p s k = Ok (One v)).
    { intros k Hkk. destruct (Hgk s k ks Hss Hks Hkk) as [Hgi Hgd].
      destruct (ctrl_key_value Hr Hk Hg Hs (Hgc s Hs) Hgi Hgd Hf Hsf Hp) as (v & H1 & H2 & _). eauto. }
    destruct (@collect_keys_ok (fun k => let* v := ctrl_key f p s k in Ok (Some v)) h ks) as (kv & Hkv & H1 & H2).
    { intros k Hkk. destruct (Hval k Hkk) as (v & _ & E). unfold h. rewrite E. reflexivity. }
    rewrite Hkv. simpl. eexists; split; [reflexivity|]. split; [reflexivity|]. split; [reflexivity|].
    simpl. intros ks' Hks'. rewrite Hks in Hks'. injection Hks' as <-. split; [assumption|]. split.
    + intros k Hkk Hno. exfalso. apply (Hno f). repeat split; assumption.
    + intros k f' Hkk Hf'. assert (f' = f) as -> by (eapply holds_unique with (d := d) (s := s) (t := t); try eassumption; repeat split; assumption).
      destruct (Hval k Hkk) as (v & Hrow & Hck). apply str_in_iff in Hs. rewrite Hs.
      exists [v]. split; [assumption|]. rewrite H1 by assumption. unfold h. now rewrite Hck.
  - eexists; split; [reflexivity|]. split; [reflexivity|]. split; [reflexivity|]. intros ks' _. simpl.
    split; [reflexivity|]. split; [reflexivity|]. intros k f Hkk Hf. exfalso.
    rewrite find_data_none in E. exact (E f Hf).
Qed.

Lemma inst_source_view : forall (d : dcoll) t s, reachable d -> good_collection d -> In s (dc_inst d) ->
  exists sd, inst_source_data d t s = Ok sd /\ source_view value_of d t s sd.
Proof.
  intros d t s Hr (Hk & Hg & Hgc & Hgk) Hs. destruct (reachable_inv Hr) as [Hb Ho].
  assert (Hss : In s (dc_sources d)) by (apply set_union_In; now right).
  assert (Hc' : str_in s (dc_ctrl d) = false).
  { destruct (kind_split _ Hb Hk Hss) as [(_ & X & _)|(X & _)]; [|exact X].
    apply str_in_false in X. contradiction. }
  destruct (keys_for_source_ok Hb Hss) as [ks Hks].
  unfold inst_source_data. destruct (find_data d s t) as [[f p]|] eqn:E.
  - apply find_data_holds in E as (Hh & Hp & _). rewrite Hks. simpl.
    destruct Hh as (Hf & Hsf & Ht).
    set (h := fun k => match inst_key f p s k with Ok v => v | Err _ => None end).
    assert (Hval : forall k, In k ks -> exists rows, file_rows (fa_file f) false s k t rows /\ inst_key f p s k = Ok (value_of rows)).
    { intros k Hkk. destruct (Hgk s k ks Hss Hks Hkk) as [Hgi Hgd].
      destruct (inst_key_value Hr Hk Hg Hs Hgi Hgd Hf Hsf Hp) as (v & H1 & H2 & _). eauto. }
    destruct (@collect_keys_ok (inst_key f p s) h ks) as (kv & Hkv & H1 & H2).
    { intros k Hkk. destruct (Hval k Hkk) as (v & _ & E). unfold h. rewrite E. reflexivity. }
    rewrite Hkv. simpl. eexists; split; [reflexivity|]. split; [reflexivity|]. split; [reflexivity|].
    simpl. intros ks' Hks'. rewrite Hks in Hks'. injection Hks' as <-. split; [assumption|]. split.
    + intros k Hkk Hno. exfalso. apply (Hno f). repeat split; assumption.
    + intros k f' Hkk Hf'. assert (f' = f) as -> by (eapply holds_unique with (d := d) (s := s) (t := t); try eassumption; repeat split; assumption).
      destruct (Hval k Hkk) as (v & Hrow & Hck). rewrite Hc'.
      exists v. split; [assumption|]. rewrite H1 by assumption. unfold h. now rewrite Hck.
  - eexists; split; [reflexivity|]. split; [reflexivity|]. split; [reflexivity|]. intros ks' _. simpl.
    split; [reflexivity|]. split; [reflexivity|]. intros k f Hkk Hf. exfalso.
    rewrite find_data_none in E. exact (E f Hf).
Qed.

(** ** Assembling the dictionary *)
Lemma dict_fold : forall (l : list (src_data V)) acc s,
  (forall sd sd', In sd l -> In sd' l -> sd_source sd = sd_source sd' -> sd = sd') ->
  (forall sd, In sd l -> sd_source sd = s ->
     dict_get s (fold_left (fun acc sd => dict_set (sd_source sd) sd acc) l acc) = Some sd) /\
  ((forall sd, In sd l -> sd_source sd <> s) ->
     dict_get s (fold_left (fun acc sd => dict_set (sd_source sd) sd acc) l acc) = dict_get s acc).
Proof.
  induction l as [|x l IH]; intros acc s Hu; simpl; [split; [intros sd []|reflexivity]|].
  assert (Hu' : forall sd sd', In sd l -> In sd' l -> sd_source sd = sd_source sd' -> sd = sd')
    by (intros; apply Hu; simpl; auto).
  destruct (IH (dict_set (sd_source x) x acc) s Hu') as [I1 I2]. split.
  - intros sd [->|Hsd] Hs; [|auto].
    destruct (List.existsb (fun y => String.eqb (sd_source y) s) l) eqn:E.
    + apply existsb_exists in E as (y & Hy & E). apply String.eqb_eq in E.
      rewrite (I1 y Hy E). f_equal. apply Hu; [now right|now left|congruence].
    + rewrite I2.
      * rewrite dict_get_set. rewrite <- Hs, String.eqb_refl. reflexivity.
      * intros y Hy Hys. assert (X : existsb (fun y => String.eqb (sd_source y) s) l = true); [|congruence].
        apply existsb_exists. exists y. split; [assumption|now apply String.eqb_eq].
  - intros Hno. rewrite I2 by (intros; apply Hno; now right). rewrite dict_get_set.
    destruct (String.eqb s (sd_source x)) eqn:E; [|reflexivity].
    apply String.eqb_eq in E. exfalso. apply (Hno x (or_introl eq_refl)). congruence.
Qed.

Lemma views_dict : forall val (d : dcoll) t lc li,
  Forall2 (fun s sd => source_view val d t s sd) (dc_ctrl d) lc ->
  Forall2 (fun s sd => source_view val d t s sd) (dc_inst d) li ->
  (forall sd sd', In sd (lc ++ li) -> In sd' (lc ++ li) -> sd_source sd = sd_source sd' -> sd = sd') ->
  let r := fold_left (fun acc sd => dict_set (sd_source sd) sd acc) (lc ++ li) [] in
  (forall s, In s (dict_keys r) <-> In s (dc_sources d)) /\
  (forall s, In s (dc_sources d) -> exists sd, dict_get s r = Some sd /\ source_view val d t s sd).
Proof.
  intros val d t lc li Hc Hi Hu r.
  assert (K : forall s, In s (dc_sources d) -> exists sd, dict_get s r = Some sd /\ source_view val d t s sd).
  { intros s Hs. assert (exists sd, In sd (lc ++ li) /\ source_view val d t s sd) as (sd & Hsd & Hv).
    { apply set_union_In in Hs as [Hs|Hs]; [destruct (Forall2_In_l Hc Hs) as (sd & H1 & H2)|destruct (Forall2_In_l Hi Hs) as (sd & H1 & H2)];
        exists sd; (split; [apply in_or_app; auto|assumption]). }
    exists sd. split; [|assumption]. unfold r. destruct (@dict_fold (lc ++ li) [] s Hu) as [D _].
    apply D; [assumption|apply Hv]. }
  split; [|exact K]. intros s. split.
  - intros Hs. destruct (in_dec string_dec s (dc_sources d)) as [|Hn]; [assumption|]. exfalso.
    apply dict_get_keys in Hs as [sd Hsd]. unfold r in Hsd.
    destruct (@dict_fold (lc ++ li) [] s Hu) as [_ D]. rewrite D in Hsd; [discriminate|].
    intros sd' Hsd' Hs'. apply Hn. apply set_union_In.
    apply in_app_or in Hsd' as [H|H]; [destruct (Forall2_In_r Hc H) as (s' & H1 & H2)|destruct (Forall2_In_r Hi H) as (s' & H1 & H2)];
      destruct H2 as (E & _); rewrite <- Hs', E; auto.
  - intros Hs. destruct (K s Hs) as (sd & Hsd & _). apply dict_get_keys. eauto.
Qed.

Lemma mapM_views : forall (g : string -> res (src_data V)) (P : string -> src_data V -> Prop) ss,
  (forall s, In s ss -> exists sd, g s = Ok sd /\ P s sd) ->
  exists l, mapM g ss = Ok l /\ Forall2 P ss l /\ Forall2 (fun s sd => g s = Ok sd) ss l.
Proof.
  intros g P; induction ss as [|s ss IH]; intros H; simpl.
  - exists []. repeat constructor.
  - destruct (H s (or_introl eq_refl)) as (sd & E & HP). destruct IH as (l & El & F1 & F2); [intros; apply H; now right|].
    rewrite E, El. simpl. eexists; split; [reflexivity|]. split; constructor; assumption.
Qed.

Theorem train_from_id_correct : forall (d : dcoll) t,
  reachable d -> good_collection d -> In t (dc_tids d) ->
  exists r, train_from_id d t = Ok (t, r) /\
    (forall s, In s (dict_keys r) <-> In s (dc_sources d)) /\
    (forall s, In s (dc_sources d) -> exists sd, dict_get s r = Some sd /\ source_view value_of d t s sd).
Proof.
  intros d t Hr Hg Ht. destruct (reachable_inv Hr) as [Hb Ho].
  unfold train_from_id. assert (Ht' := Ht). apply z_in_iff in Ht'. rewrite Ht'. simpl.
  destruct (@mapM_views (ctrl_source_data d t) (source_view value_of d t) (dc_ctrl d)) as (lc & -> & Hc & Hc2).
  { intros s Hs. now apply ctrl_source_view. }
  destruct (@mapM_views (inst_source_data d t) (source_view value_of d t) (dc_inst d)) as (li & -> & Hi & Hi2).
  { intros s Hs. now apply inst_source_view. }
  simpl. eexists; split; [reflexivity|]. apply views_dict; [assumption|assumption|].
  assert (Hkk := Hg). destruct Hkk as (Hk & _).
  assert (Hcn : forall sd, In sd lc -> ctrl_source_data d t (sd_source sd) = Ok sd /\ In (sd_source sd) (dc_ctrl d)).
  { intros sd Hsd. destruct (Forall2_In_r Hc2 Hsd) as (s & Hs & E). 
    destruct (ctrl_source_view t Hr Hg Hs) as (sd' & E' & (Hn & _)). rewrite E in E'. injection E' as <-. rewrite Hn. auto. }
  assert (Hin : forall sd, In sd li -> inst_source_data d t (sd_source sd) = Ok sd /\ In (sd_source sd) (dc_inst d)).
  { intros sd Hsd. destruct (Forall2_In_r Hi2 Hsd) as (s & Hs & E).
    destruct (inst_source_view t Hr Hg Hs) as (sd' & E' & (Hn & _)). rewrite E in E'. injection E' as <-. rewrite Hn. auto. }
  assert (Hdis : forall s, In s (dc_ctrl d) -> In s (dc_inst d) -> False).
  { intros s H1 H2. destruct Hb as (_ & B1 & B2). apply B1 in H1 as (f & F1 & F2 & _). apply B2 in H2 as (f' & F1' & F2' & _).
    exact (Hk f f' s F1 F1' F2 F2'). }
  intros sd sd' H1 H2 E. apply in_app_or in H1, H2.
  destruct H1 as [H1|H1], H2 as [H2|H2].
  - destruct (Hcn _ H1) as [E1 _], (Hcn _ H2) as [E2 _]. rewrite E in E1. congruence.
  - destruct (Hcn _ H1) as [_ E1], (Hin _ H2) as [_ E2]. rewrite E in E1. exfalso. eauto.
  - destruct (Hin _ H1) as [_ E1], (Hcn _ H2) as [_ E2]. rewrite E in E1. exfalso. eauto.
  - destruct (Hin _ H1) as [E1 _], (Hin _ H2) as [E2 _]. rewrite E in E1. congruence.
Qed.

Theorem train_from_id_missing : forall (d : dcoll) t,
  ~ In t (dc_tids d) -> train_from_id d t = Err ETrainIDError.
Proof.
  intros d t H. unfold train_from_id. apply z_in_false in H. now rewrite H.
Qed.

(** ** The iterator's cache *)
Definition sec (d : dcoll) (s : string) : string := if str_in s (dc_ctrl d) then "CONTROL" else "INSTRUMENT".
Definition cache_inv (d : dcoll) (c : it_cache V) : Prop :=
  forall s k f ds, In (s, k, (f, ds)) c ->
    In f (source_files (dc_files d) s) /\ fa_dataset f (ds_path (sec d s) s k) = Ok ds.

(** What is found without a cache. *)
Definition found (d : dcoll) (s k : string) (t : Z) : res (option (faccess * nat * dataset V)) :=
  match find_data d s t with
  | None => Ok None
  | Some (f, p) => let* ds := fa_dataset f (ds_path (sec d s) s k) in Ok (Some (f, p, ds))
  end.

Lemma it_lookup_In : forall s k c (v : faccess * dataset V), it_lookup s k c = Some v -> In (s, k, v) c.
Proof.
  intros s k; induction c as [|[[s' k'] v'] c IH]; intros v H; simpl in H; [discriminate|].
  destruct (String.eqb s s' && String.eqb k k') eqn:E.
  - apply andb_true_iff in E as [E1 E2]. apply String.eqb_eq in E1, E2. injection H as ->. subst. now left.
  - right; auto.
Qed.

Lemma it_find_spec : forall (d : dcoll) c s k t,
  built d -> Forall opened (dc_files d) -> good_files d -> cache_inv d c ->
  fst (it_find d c s k t) = found d s k t /\ cache_inv d (snd (it_find d c s k t)).
Proof.
  intros d c s k t Hb Ho Hg Hinv.
  assert (Hfb : let fb := match find_data d s t with
      | None => (Ok None, c)
      | Some (f, pos) =>
          match fa_dataset f (ds_path (if str_in s (dc_ctrl d) then "CONTROL" else "INSTRUMENT") s k) with
          | Ok ds => (Ok (Some (f, pos, ds)), (s, k, (f, ds)) :: c)
          | Err e => (Err e, c)
          end
      end in fst fb = found d s k t /\ cache_inv d (snd fb)).
  { unfold found, sec. destruct (find_data d s t) as [[f p]|] eqn:E; [|split; [reflexivity|assumption]].
    destruct (fa_dataset f _) as [ds|e] eqn:Ed; simpl; split; try reflexivity; try assumption.
    intros s' k' f' ds' [H|H]; [|auto]. injection H as <- <- <- <-.
    apply find_data_holds in E as ((H1 & H2 & _) & _). split; [apply source_files_In; auto|exact Ed]. }
  unfold it_find. destruct (it_lookup s k c) as [[f ds]|] eqn:El; [|exact Hfb].
  destruct (tid_positions f t) as [|p r] eqn:Ep; [exact Hfb|]. simpl. split; [|assumption].
  apply it_lookup_In in El. destruct (Hinv _ _ _ _ El) as [Hf Hds].
  assert (Hh : holds d f s t).
  { apply source_files_In in Hf as [H1 H2]. repeat split; try assumption.
    eapply nth_error_In, tid_positions_spec; eassumption. }
  unfold found. destruct (find_data_some Hb Ho Hg Hh) as [p' E]. rewrite E.
  apply find_data_holds in E as (_ & _ & r' & E). rewrite Ep in E. injection E as <- <-. rewrite Hds. reflexivity.
Qed.

(** The loops of the iterator do not depend on the cache they start from. *)
Lemma it_keys_spec : forall (d : dcoll) t s val ks c,
  built d -> Forall opened (dc_files d) -> good_files d -> cache_inv d c ->
  fst (it_keys d t s val ks c) = collect_keys (fun k => bind (found d s k t) (val k)) ks /\
  cache_inv d (snd (it_keys d t s val ks c)).
Proof.
  intros d t s val ks. induction ks as [|k ks IH]; intros c Hb Ho Hg Hinv; simpl; [split; [reflexivity|assumption]|].
  destruct (@it_find_spec d c s k t Hb Ho Hg Hinv) as [F1 F2].
  destruct (it_find d c s k t) as [o c1]. simpl in F1, F2. subst o.
  destruct (bind (found d s k t) (val k)) as [ov|e]; simpl; [|split; [reflexivity|assumption]].
  destruct (IH c1 Hb Ho Hg F2) as [I1 I2]. destruct (it_keys d t s val ks c1) as [rest c2]. simpl in *. subst rest.
  split; [reflexivity|assumption].
Qed.

Definition source_nocache (d : dcoll) (t : Z) (is_ctrl : bool) (s : string) : res (src_data V) :=
  let* ks := keys_for_source d s in
  let* kv := collect_keys (fun k => bind (found d s k t)
               ((if is_ctrl then fun _ => it_ctrl_val (V:=V) else it_inst_val s) k)) ks in
  Ok (mk_sd s t kv).

Lemma it_source_spec : forall (d : dcoll) t b s c,
  built d -> Forall opened (dc_files d) -> good_files d -> cache_inv d c ->
  fst (it_source d t b s c) = source_nocache d t b s /\ cache_inv d (snd (it_source d t b s c)).
Proof.
  intros d t b s c Hb Ho Hg Hinv. unfold it_source, source_nocache.
  destruct (keys_for_source d s) as [ks|e]; simpl; [|split; [reflexivity|assumption]].
  destruct (@it_keys_spec d t s (if b then fun _ => it_ctrl_val (V:=V) else it_inst_val s) ks c Hb Ho Hg Hinv) as [K1 K2].
  destruct (it_keys _ _ _ _ _ _) as [kv c']. simpl in *. subst kv. split; [reflexivity|assumption].
Qed.

Lemma it_sources_spec : forall (d : dcoll) t b ss c,
  built d -> Forall opened (dc_files d) -> good_files d -> cache_inv d c ->
  fst (it_sources d t b ss c) = mapM (source_nocache d t b) ss /\ cache_inv d (snd (it_sources d t b ss c)).
Proof.
  intros d t b ss. induction ss as [|s ss IH]; intros c Hb Ho Hg Hinv; simpl; [split; [reflexivity|assumption]|].
  destruct (@it_source_spec d t b s c Hb Ho Hg Hinv) as [K1 K2].
  destruct (it_source d t b s c) as [o c1]. simpl in *. subst o.
  destruct (source_nocache d t b s) as [sd|e]; simpl; [|split; [reflexivity|assumption]].
  destruct (IH c1 Hb Ho Hg K2) as [I1 I2]. destruct (it_sources d t b ss c1) as [rest c2]. simpl in *. subst rest.
  split; [reflexivity|assumption].
Qed.

Definition assemble_nocache (d : dcoll) (t : Z) : res (list (string * src_data V)) :=
  let* lc := mapM (source_nocache d t true) (dc_ctrl d) in
  let* li := mapM (source_nocache d t false) (dc_inst d) in
  Ok (fold_left (fun acc sd => dict_set (sd_source sd) sd acc) (lc ++ li) []).

Lemma assemble_spec : forall (d : dcoll) t c,
  built d -> Forall opened (dc_files d) -> good_files d -> cache_inv d c ->
  fst (assemble_data d t c) = assemble_nocache d t /\ cache_inv d (snd (assemble_data d t c)).
Proof.
  intros d t c Hb Ho Hg Hinv. unfold assemble_data, assemble_nocache.
  destruct (@it_sources_spec d t true (dc_ctrl d) c Hb Ho Hg Hinv) as [K1 K2].
  destruct (it_sources d t true (dc_ctrl d) c) as [rc c1]. simpl in *. subst rc.
  destruct (mapM (source_nocache d t true) (dc_ctrl d)) as [lc|e]; simpl; [|split; [reflexivity|assumption]].
  destruct (@it_sources_spec d t false (dc_inst d) c1 Hb Ho Hg K2) as [K3 K4].
  destruct (it_sources d t false (dc_inst d) c1) as [ri c2]. simpl in *. subst ri.
  split; [reflexivity|assumption].
Qed.

Lemma cache_inv_nil : forall (d : dcoll), cache_inv d [].
Proof. intros d s k f ds []. Qed.

(** The cache after assembling any sequence of trains. *)
Definition cache_after (d : dcoll) (history : list Z) : it_cache V :=
  fold_left (fun c t => snd (assemble_data d t c)) history [].

Lemma cache_after_inv : forall (d : dcoll) h,
  built d -> Forall opened (dc_files d) -> good_files d -> cache_inv d (cache_after d h).
Proof.
  intros d h Hb Ho Hg. unfold cache_after. generalize (cache_inv_nil d). generalize (@nil (string * string * (faccess * dataset V))).
  induction h as [|t h IH]; intros c Hc; simpl; [assumption|]. apply IH. now apply assemble_spec.
Qed.

Theorem cache_invisible : forall (d : dcoll) history t,
  reachable d -> good_files d ->
  fst (assemble_data d t (cache_after d history)) = fst (assemble_data d t []).
Proof.
  intros d h t Hr Hg. destruct (reachable_inv Hr) as [Hb Ho].
  rewrite (proj1 (assemble_spec t Hb Ho Hg (@cache_after_inv d h Hb Ho Hg))).
  symmetry. apply assemble_spec; try assumption. apply cache_inv_nil.
Qed.

(** The loop over trains, without cache. *)
Fixpoint loop_nocache (d : dcoll) (require_all : bool) (tids : list Z)
  : list (res (Z * list (string * src_data V))) :=
  match tids with
  | [] => []
  | t :: r =>
      match (if require_all then check_data_missing d t else Ok false) with
      | Err e => [Err e]
      | Ok true => loop_nocache d require_all r
      | Ok false =>
          match assemble_nocache d t with
          | Err e => [Err e]
          | Ok x => Ok (t, x) :: loop_nocache d require_all r
          end
      end
  end.
Lemma it_loop_spec : forall (d : dcoll) ra tids c,
  built d -> Forall opened (dc_files d) -> good_files d -> cache_inv d c ->
  it_loop d ra tids c = loop_nocache d ra tids.
Proof.
  intros d ra; induction tids as [|t tids IH]; intros c Hb Ho Hg Hinv; simpl; [reflexivity|].
  destruct (if ra then _ else _) as [[|]|e]; [auto| |reflexivity].
  destruct (assemble_spec t Hb Ho Hg Hinv) as [K1 K2]. destruct (assemble_data d t c) as [o c']. simpl in *. subst o.
  destruct (assemble_nocache d t); [|reflexivity]. now rewrite IH.
Qed.

(** ** What trains() yields *)
Lemma ctrl_source_it : forall (d : dcoll) t s, reachable d -> good_collection d -> In s (dc_ctrl d) ->
  exists sd, source_nocache d t true s = Ok sd /\ source_view value_it d t s sd.
Proof.
  intros d t s Hr (Hk & Hg & Hgc & Hgk) Hs. destruct (reachable_inv Hr) as [Hb Ho].
  assert (Hss : In s (dc_sources d)) by (apply set_union_In; now left).
  assert (Hc' : str_in s (dc_ctrl d) = true) by now apply str_in_iff.
  destruct (keys_for_source_ok Hb Hss) as [ks Hks].
  unfold source_nocache. rewrite Hks. simpl.
  destruct (find_data d s t) as [[f p]|] eqn:E.
  - assert (E' := E). apply find_data_holds in E as (Hh & Hp & _). destruct Hh as (Hf & Hsf & Ht).
    assert (Hval : forall k, In k ks -> exists v, file_rows (fa_file f) true s k t [v] /\
               bind (found d s k t) (it_ctrl_val (V:=V)) = Ok (Some (One v))).
    { intros k Hkk. destruct (Hgk s k ks Hss Hks Hkk) as [Hgi Hgd].
      destruct (ctrl_key_value Hr Hk Hg Hs (Hgc s Hs) Hgi Hgd Hf Hsf Hp) as (v & H1 & _ & ds & H2 & H3).
      exists v. split; [assumption|]. unfold found, sec. rewrite E', Hc', H2. exact H3. }
    set (h := fun k => match bind (found d s k t) (it_ctrl_val (V:=V)) with Ok v => v | Err _ => None end).
    destruct (@collect_keys_ok (fun k => bind (found d s k t) (it_ctrl_val (V:=V))) h ks) as (kv & Hkv & H1 & H2).
    { intros k Hkk. destruct (Hval k Hkk) as (v & _ & Ev). unfold h. rewrite Ev. reflexivity. }
    rewrite Hkv. simpl. eexists; split; [reflexivity|]. split; [reflexivity|]. split; [reflexivity|].
    simpl. intros ks' Hks'. rewrite Hks in Hks'. injection Hks' as <-. split; [assumption|]. split.
    + intros k Hkk Hno. exfalso. apply (Hno f). repeat split; assumption.
    + intros k f' Hkk Hf'. assert (f' = f) as -> by (eapply holds_unique with (d := d) (s := s) (t := t); try eassumption; repeat split; assumption).
      destruct (Hval k Hkk) as (v & Hrow & Hck). rewrite Hc'.
      exists [v]. split; [assumption|]. rewrite H1 by assumption. unfold h. now rewrite Hck.
  - assert (X : collect_keys (fun k => bind (found d s k t) (it_ctrl_val (V:=V))) ks = Ok []).
    { clear -E. induction ks as [|k ks IH]; simpl; [reflexivity|]. unfold found at 1. rewrite E. simpl. now rewrite IH. }
    rewrite X. simpl. eexists; split; [reflexivity|]. split; [reflexivity|]. split; [reflexivity|]. intros ks' _. simpl.
    split; [reflexivity|]. split; [reflexivity|]. intros k f Hkk Hf. exfalso.
    rewrite find_data_none in E. exact (E f Hf).
Qed.

Lemma inst_source_it : forall (d : dcoll) t s, reachable d -> good_collection d -> In s (dc_inst d) ->
  exists sd, source_nocache d t false s = Ok sd /\ source_view value_it d t s sd.
Proof.
  intros d t s Hr (Hk & Hg & Hgc & Hgk) Hs. destruct (reachable_inv Hr) as [Hb Ho].
  assert (Hss : In s (dc_sources d)) by (apply set_union_In; now right).
  assert (Hc' : str_in s (dc_ctrl d) = false).
  { destruct (kind_split _ Hb Hk Hss) as [(_ & X & _)|(X & _)]; [|exact X].
    apply str_in_false in X. contradiction. }
  destruct (keys_for_source_ok Hb Hss) as [ks Hks].
  unfold source_nocache. rewrite Hks. simpl.
  destruct (find_data d s t) as [[f p]|] eqn:E.
  - assert (E' := E). apply find_data_holds in E as (Hh & Hp & _). destruct Hh as (Hf & Hsf & Ht).
    assert (Hval : forall k, In k ks -> exists rows, file_rows (fa_file f) false s k t rows /\
               bind (found d s k t) (it_inst_val s k) = Ok (value_it rows)).
    { intros k Hkk. destruct (Hgk s k ks Hss Hks Hkk) as [Hgi Hgd].
      destruct (inst_key_value Hr Hk Hg Hs Hgi Hgd Hf Hsf Hp) as (v & H1 & _ & ds & H2 & H3).
      exists v. split; [assumption|]. unfold found, sec. rewrite E', Hc', H2. exact H3. }
    set (h := fun k => match bind (found d s k t) (it_inst_val s k) with Ok v => v | Err _ => None end).
    destruct (@collect_keys_ok (fun k => bind (found d s k t) (it_inst_val s k)) h ks) as (kv & Hkv & H1 & H2).
    { intros k Hkk. destruct (Hval k Hkk) as (v & _ & Ev). unfold h. rewrite Ev. reflexivity. }
    rewrite Hkv. simpl. eexists; split; [reflexivity|]. split; [reflexivity|]. split; [reflexivity|].
    simpl. intros ks' Hks'. rewrite Hks in Hks'. injection Hks' as <-. split; [assumption|]. split.
    + intros k Hkk Hno. exfalso. apply (Hno f). repeat split; assumption.
    + intros k f' Hkk Hf'. assert (f' = f) as -> by (eapply holds_unique with (d := d) (s := s) (t := t); try eassumption; repeat split; assumption).
      destruct (Hval k Hkk) as (v & Hrow & Hck). rewrite Hc'.
      exists v. split; [assumption|]. rewrite H1 by assumption. unfold h. now rewrite Hck.
  - assert (X : collect_keys (fun k => bind (found d s k t) (it_inst_val s k)) ks = Ok []).
    { clear -E. induction ks as [|k ks IH]; simpl; [reflexivity|]. unfold found at 1. rewrite E. simpl. now rewrite IH. }
    rewrite X. simpl. eexists; split; [reflexivity|]. split; [reflexivity|]. split; [reflexivity|]. intros ks' _. simpl.
    split; [reflexivity|]. split; [reflexivity|]. intros k f Hkk Hf. exfalso.
    rewrite find_data_none in E. exact (E f Hf).
Qed.

Lemma assemble_view : forall (d : dcoll) t, reachable d -> good_collection d ->
  exists r, assemble_nocache d t = Ok r /\ train_view value_it d t r.
Proof.
  intros d t Hr Hg. destruct (reachable_inv Hr) as [Hb Ho]. unfold assemble_nocache.
  destruct (@mapM_views (source_nocache d t true) (source_view value_it d t) (dc_ctrl d)) as (lc & -> & Hc & Hc2).
  { intros s Hs. now apply ctrl_source_it. }
  destruct (@mapM_views (source_nocache d t false) (source_view value_it d t) (dc_inst d)) as (li & -> & Hi & Hi2).
  { intros s Hs. now apply inst_source_it. }
  simpl. eexists; split; [reflexivity|]. apply views_dict; [assumption|assumption|].
  assert (Hkk := Hg). destruct Hkk as (Hk & _).
  assert (Hcn : forall sd, In sd lc -> source_nocache d t true (sd_source sd) = Ok sd /\ In (sd_source sd) (dc_ctrl d)).
  { intros sd Hsd. destruct (Forall2_In_r Hc2 Hsd) as (s & Hs & E). 
    destruct (ctrl_source_it t Hr Hg Hs) as (sd' & E' & (Hn & _)). rewrite E in E'. injection E' as <-. rewrite Hn. auto. }
  assert (Hin : forall sd, In sd li -> source_nocache d t false (sd_source sd) = Ok sd /\ In (sd_source sd) (dc_inst d)).
  { intros sd Hsd. destruct (Forall2_In_r Hi2 Hsd) as (s & Hs & E).
    destruct (inst_source_it t Hr Hg Hs) as (sd' & E' & (Hn & _)). rewrite E in E'. injection E' as <-. rewrite Hn. auto. }
  assert (Hdis : forall s, In s (dc_ctrl d) -> In s (dc_inst d) -> False).
  { intros s H1 H2. destruct Hb as (_ & B1 & B2). apply B1 in H1 as (f & F1 & F2 & _). apply B2 in H2 as (f' & F1' & F2' & _).
    exact (Hk f f' s F1 F1' F2 F2'). }
  intros sd sd' H1 H2 E. apply in_app_or in H1, H2.
  destruct H1 as [H1|H1], H2 as [H2|H2].
  - destruct (Hcn _ H1) as [E1 _], (Hcn _ H2) as [E2 _]. rewrite E in E1. congruence.
  - destruct (Hcn _ H1) as [_ E1], (Hin _ H2) as [_ E2]. rewrite E in E1. exfalso. eauto.
  - destruct (Hin _ H1) as [_ E1], (Hcn _ H2) as [_ E2]. rewrite E in E1. exfalso. eauto.
  - destruct (Hin _ H1) as [E1 _], (Hin _ H2) as [E2 _]. rewrite E in E1. congruence.
Qed.

Lemma file_rows_fun : forall (f : h5file V) b s k t r1 r2,
  file_rows f b s k t r1 -> file_rows f b s k t r2 -> r1 = r2.
Proof.
  intros f b s k t r1 r2
    (raw & q & g & x & y & ds & A1 & A2 & A3 & A4 & A5 & A6 & A7 & A8)
    (raw2 & q2 & g2 & x2 & y2 & ds2 & B1 & B2 & B3 & B4 & B5 & B6 & B7 & B8).
  rewrite A1 in B1. injection B1 as <-.
  assert (q2 = q) as ->. { destruct (Nat.lt_trichotomy q q2) as [L|[->|L]]; [|reflexivity|]; exfalso; [exact (B3 _ L A2)|exact (A3 _ L B2)]. }
  rewrite A4 in B4. injection B4 as <-. rewrite A5 in B5. injection B5 as <-. rewrite A6 in B6. injection B6 as <-.
  rewrite A7 in B7. injection B7 as <-. congruence.
Qed.

(** ** require_all *)
Lemma anyM_ok : forall A (g : A -> res bool) (P : A -> Prop) l,
  (forall x, In x l -> exists b, g x = Ok b /\ (b = true <-> P x)) ->
  exists b, anyM g l = Ok b /\ (b = true <-> exists x, In x l /\ P x).
Proof.
  intros A g P; induction l as [|x l IH]; intros H; simpl.
  - exists false. split; [reflexivity|]. split; [discriminate|intros (x & [] & _)].
  - destruct (H x (or_introl eq_refl)) as (b & -> & Hb). simpl. destruct b.
    + exists true. split; [reflexivity|]. split; [|auto]. intros _. exists x. split; [now left|now apply Hb].
    + destruct IH as (b & -> & Hb'); [intros; apply H; now right|]. exists b. split; [reflexivity|].
      rewrite Hb'. split.
      * intros (y & Hy & HP). exists y; split; [now right|assumption].
      * intros (y & [<-|Hy] & HP); [apply Hb in HP; discriminate|eauto].
Qed.

Lemma groups_In : forall ks acc g,
  In g (fold_left (fun acc k => set_add (key_group k) acc) ks acc) <->
  In g acc \/ exists k, In k ks /\ g = key_group k.
Proof.
  induction ks as [|k ks IH]; intros acc g; simpl.
  - split; [auto|intros [H|(k & [] & _)]; exact H].
  - rewrite IH, set_add_In. split.
    + intros [[->|H]|(k' & H & ->)]; [right; eauto|auto|right; eauto].
    + intros [H|(k' & [->|H] & ->)]; [auto|auto|right; eauto].
Qed.

Lemma inst_missing_spec : forall (d : dcoll) t s, reachable d -> good_collection d -> In s (dc_inst d) ->
  exists b, inst_missing d t s = Ok b /\
    (b = true <-> ~ exists f, holds d f s t /\ forall ks k, keys_for_source d s = Ok ks -> In k ks ->
       exists rows, file_rows (fa_file f) false s k t rows /\ rows <> []).
Proof.
  intros d t s Hr (Hk & Hg & Hgc & Hgk) Hs. destruct (reachable_inv Hr) as [Hb Ho].
  assert (Hss : In s (dc_sources d)) by (apply set_union_In; now right).
  assert (Hc' : str_in s (dc_ctrl d) = false).
  { destruct (kind_split _ Hb Hk Hss) as [(_ & X & _)|(X & _)]; [|exact X].
    apply str_in_false in X. contradiction. }
  destruct (keys_for_source_ok Hb Hss) as [ks Hks].
  unfold inst_missing. destruct (find_data d s t) as [[f p]|] eqn:E.
  - apply find_data_holds in E as (Hh & Hp & _). assert (Hh' := Hh). destruct Hh' as (Hf & Hsf & Ht).
    rewrite Hks. simpl.
    assert (Hval : forall k, In k ks -> exists fi co c rows, fa_get_index f s (key_group k) = Ok (fi, co) /\
              nth_error co p = Some c /\ file_rows (fa_file f) false s k t rows /\ Z.of_nat (List.length rows) = c).
    { intros k Hkk. destruct (Hgk s k ks Hss Hks Hkk) as [Hgi Hgd].
      destruct (good_row Hr Hk Hg Hss Hgi Hgd Hf Hsf Hp)
        as (ds & firsts & counts & a & c & Hix & Ha & Hc & Ha0 & Hc0 & Hbd & Hds & Hrows & _).
      rewrite Hc' in *. exists firsts, counts, c, (zslice (ds_rows ds) a (a + c)).
      repeat split; try assumption. apply zslice_length; assumption. }
    destruct (@anyM_ok _ (fun g => let* ix := fa_get_index f s g in let* c := nth_res (snd ix) p in Ok (c =? 0)%Z)
       (fun g => exists k rows, In k ks /\ g = key_group k /\ file_rows (fa_file f) false s k t rows /\ rows = [])
       (fold_left (fun acc k => set_add (key_group k) acc) ks [])) as (b & Hb' & Hiff).
    { intros g Hgin. apply groups_In in Hgin as [[]|(k & Hkk & ->)].
      destruct (Hval k Hkk) as (fi & co & c & rows & Hix & Hc & Hrows & HL).
      rewrite Hix. simpl. unfold nth_res. rewrite Hc. simpl. eexists; split; [reflexivity|].
      rewrite Z.eqb_eq. split.
      - intros ->. exists k, rows. repeat split; try assumption. now destruct rows.
      - intros (k' & rows' & Hk' & Heq & Hrows' & ->).
        destruct (Hval k' Hk') as (fi' & co' & c' & rows2 & Hix' & Hc2 & Hrows2 & HL2).
        rewrite <- Heq, Hix in Hix'. injection Hix' as <- <-. rewrite Hc in Hc2. injection Hc2 as <-.
        (* rows' and rows2 are the same rows *)
        rewrite <- (file_rows_fun Hrows' Hrows2) in HL2. simpl in HL2. lia. }
    rewrite Hb'. exists b. split; [reflexivity|]. rewrite Hiff. split.
    + intros (g & Hgin & k & rows & Hkk & _ & Hrows & ->) (f' & Hf' & Hall).
      assert (f' = f) as -> by (eapply holds_unique with (d := d) (s := s) (t := t); eassumption).
      destruct (Hall ks k eq_refl Hkk) as (rows' & Hrows' & Hne). apply Hne.
      exact (file_rows_fun Hrows' Hrows).
    + intros Hno. destruct b; [apply Hiff; reflexivity|]. exfalso. apply Hno. exists f. split; [assumption|].
      intros ks' k Hks' Hkk. injection Hks' as <-.
      destruct (Hval k Hkk) as (fi & co & c & rows & Hix & Hc & Hrows & HL).
      exists rows. split; [assumption|]. intros ->. assert (false = true); [|discriminate]. apply Hiff.
      exists (key_group k). split; [apply groups_In; right; eauto|]. exists k, []. auto.
  - exists true. split; [reflexivity|]. split; [|auto]. intros _ (f & Hf & _).
    rewrite find_data_none in E. exact (E f Hf).
Qed.

Lemma dec_exists_holds : forall (d : dcoll) s t, (exists f, holds d f s t) \/ (forall f, ~ holds d f s t).
Proof.
  intros d s t. destruct (find_data d s t) as [[f p]|] eqn:E.
  - left. apply find_data_holds in E as (H & _). eauto.
  - right. now apply find_data_none.
Qed.

Lemma check_missing_spec : forall (d : dcoll) t, reachable d -> good_collection d ->
  exists b, check_data_missing d t = Ok b /\ (b = false <-> complete d t).
Proof.
  intros d t Hr Hg. destruct (reachable_inv Hr) as [Hb Ho]. unfold check_data_missing, complete.
  destruct (existsb _ _) eqn:E.
  - exists true. split; [reflexivity|]. split; [discriminate|]. intros [H _].
    apply existsb_exists in E as (s & Hs & E). destruct (find_data d s t) eqn:F; [discriminate|].
    destruct (H s Hs) as [f Hf]. rewrite find_data_none in F. exfalso. exact (F f Hf).
  - assert (Hctrl : forall s, In s (dc_ctrl d) -> exists f, holds d f s t).
    { intros s Hs. destruct (dec_exists_holds d s t) as [|Hn]; [assumption|]. exfalso.
      assert (X : existsb (fun s => match find_data d s t with None => true | Some _ => false end) (dc_ctrl d) = true); [|congruence].
      apply existsb_exists. exists s. split; [assumption|]. apply find_data_none in Hn. now rewrite Hn. }
    destruct (@anyM_ok _ (inst_missing d t) (fun s => ~ exists f, holds d f s t /\
        forall ks k, keys_for_source d s = Ok ks -> In k ks ->
        exists rows, file_rows (fa_file f) false s k t rows /\ rows <> []) (dc_inst d)) as (b & -> & Hiff).
    { intros s Hs. now apply inst_missing_spec. }
    exists b. split; [reflexivity|]. split.
    + intros ->. split; [assumption|]. intros s Hs.
      destruct (inst_missing_spec t Hr Hg Hs) as (b & _ & Hbs).
      (* decidable through the computed boolean *)
      destruct b.
      * exfalso. assert (false = true); [|discriminate]. apply Hiff. exists s. split; [assumption|]. now apply Hbs.
      * destruct (dec_exists_holds d s t) as [[f Hf]|Hn].
        -- exists f. split; [assumption|].
           intros ks k Hks Hk.
           destruct Hg as (Hkinds & Hgf & Hgc & Hgk).
           assert (Hss : In s (dc_sources d)) by (apply set_union_In; now right).
           destruct (Hgk s k ks Hss Hks Hk) as [Hgi Hgd].
           assert (Hf' := Hf). destruct Hf' as (F1 & F2 & F3). apply In_nth_error in F3 as [p Hp].
           destruct (inst_key_value Hr Hkinds Hgf Hs Hgi Hgd F1 F2 Hp) as (rows & Hrows & _).
           exists rows. split; [assumption|]. intros ->.
           assert (X : ~ exists f, holds d f s t /\
              forall ks k, keys_for_source d s = Ok ks -> In k ks ->
              exists rows, file_rows (fa_file f) false s k t rows /\ rows <> []).
           { intros (f' & Hf2 & Hall).
             assert (f' = f) as -> by (eapply holds_unique with (d := d) (s := s) (t := t); eassumption).
             destruct (Hall ks k Hks Hk) as (rows' & Hrows' & Hne). apply Hne.
             exact (file_rows_fun Hrows' Hrows). }
           apply Hbs in X. discriminate.
        -- exfalso. assert (X : false = true); [|discriminate]. apply Hbs. intros (f & Hf & _). exact (Hn f Hf).
    + intros [_ Hall]. destruct b; [|reflexivity]. destruct Hiff as [Hiff _]. destruct (Hiff eq_refl) as (s & Hs & Hn).
      exfalso. apply Hn. auto.
Qed.

Theorem trains_correct : forall (d : dcoll), reachable d -> good_collection d ->
  yields d (trains d false) (dc_tids d).
Proof.
  intros d Hr Hg. destruct (reachable_inv Hr) as [Hb Ho]. unfold trains.
  rewrite it_loop_spec; [|assumption|assumption|apply Hg|apply cache_inv_nil].
  unfold yields. induction (dc_tids d) as [|t tids IH]; simpl; [constructor|].
  destruct (assemble_view t Hr Hg) as (r & -> & Hv). constructor; [eauto|assumption].
Qed.

Theorem trains_require_all : forall (d : dcoll), reachable d -> good_collection d ->
  exists kept, yields d (trains d true) kept /\
    exists keep : Z -> bool, kept = filter keep (dc_tids d) /\ forall t, keep t = true <-> complete d t.
Proof.
  intros d Hr Hg. destruct (reachable_inv Hr) as [Hb Ho]. unfold trains.
  rewrite it_loop_spec; [|assumption|assumption|apply Hg|apply cache_inv_nil].
  set (keep := fun t => match check_data_missing d t with Ok false => true | _ => false end).
  exists (filter keep (dc_tids d)). split.
  - unfold yields. induction (dc_tids d) as [|t tids IH]; simpl; [constructor|].
    destruct (check_missing_spec t Hr Hg) as (b & E & _).
    assert (K : keep t = negb b) by (unfold keep; rewrite E; now destruct b). rewrite K, E.
    destruct b; simpl; [assumption|].
    destruct (assemble_view t Hr Hg) as (r & -> & Hv). constructor; [eauto|assumption].
  - exists keep. split; [reflexivity|]. intros t. unfold keep.
    destruct (check_missing_spec t Hr Hg) as (b & -> & Hiff). rewrite <- Hiff. destruct b; split; congruence.
Qed.


(** ** Agreement of the two ways to read a train *)
Theorem trains_agree : forall (d : dcoll), reachable d -> good_collection d ->
  Forall2 (fun o t => exists r r',
      o = Ok (t, r) /\ train_from_id d t = Ok (t, r') /\
      (forall s, In s (dict_keys r) <-> In s (dict_keys r')) /\
      (forall s k, item r s k = item r' s k \/ (item r s k = Some (Many []) /\ item r' s k = None)))
    (trains d false) (dc_tids d).
Proof.
  intros d Hr Hg. pose proof (trains_correct Hr Hg) as H. unfold yields in H.
  assert (Hin : forall t, In t (dc_tids d) -> In t (dc_tids d)) by auto.
  revert Hin H. generalize (trains d false). generalize (dc_tids d) at 1 3 4.
  intros l items Hin H. induction H as [|o t items l (r & -> & Hv) H IH]; [constructor|]. constructor.
  - destruct (train_from_id_correct Hr Hg (Hin t (or_introl eq_refl))) as (r' & Hr' & Hk' & Hs').
    destruct Hv as [Hk Hs]. exists r, r'. split; [reflexivity|]. split; [assumption|].
    split; [intros s; now rewrite Hk, Hk'|]. intros s k.
    destruct (in_dec string_dec s (dc_sources d)) as [Hin'|Hn].
    + destruct (Hs s Hin') as (sd & E & V1). destruct (Hs' s Hin') as (sd' & E' & V2).
      unfold item. rewrite E, E'. destruct V1 as (_ & _ & V1). destruct V2 as (_ & _ & V2).
      destruct (reachable_inv Hr) as [Hb Ho]. destruct (keys_for_source_ok Hb Hin') as [ks Hks].
      destruct (V1 ks Hks) as (A1 & A2 & A3). destruct (V2 ks Hks) as (B1 & B2 & B3).
      destruct (in_dec string_dec k ks) as [Hkk|Hkk]; [|left; rewrite A1, B1; auto].
      destruct (dec_exists_holds d s t) as [[f Hf]|Hno]; [|left; rewrite A2, B2; auto].
      destruct (A3 k f Hkk Hf) as (rows & R1 & ->). destruct (B3 k f Hkk Hf) as (rows' & R2 & ->).
      rewrite (file_rows_fun R2 R1). destruct rows as [|v [|v' rows]]; [right; split; reflexivity|left; reflexivity|left; reflexivity].
    + left. unfold item. destruct (dict_get s r) eqn:E.
      * exfalso. apply Hn, Hk, dict_get_keys. eauto.
      * destruct (dict_get s r') eqn:E'; [|reflexivity]. exfalso. apply Hn, Hk', dict_get_keys. eauto.
  - apply IH. intros x Hx. apply Hin. now right.
Qed.

Theorem train_from_index_spec : forall (d : dcoll) i,
  let n := Z.of_nat (List.length (dc_tids d)) in
  (forall j t, (0 <= j < n)%Z -> (i = j \/ i = j - n)%Z -> nth_error (dc_tids d) (Z.to_nat j) = Some t ->
     train_from_index d i = train_from_id d t) /\
  (~ (- n <= i < n)%Z -> train_from_index d i = Err EIndexError).
Proof.
  intros d i n. unfold train_from_index, py_index. fold n. split.
  - intros j t Hj Hi Ht. destruct (i <? 0)%Z eqn:E.
    + apply Z.ltb_lt in E. replace (i + n)%Z with j by lia.
      replace (0 <=? j)%Z with true by (symmetry; apply Z.leb_le; lia).
      replace (j <? n)%Z with true by (symmetry; apply Z.ltb_lt; lia). simpl. now rewrite Ht.
    + apply Z.ltb_ge in E. replace i with j by lia.
      replace (0 <=? j)%Z with true by (symmetry; apply Z.leb_le; lia).
      replace (j <? n)%Z with true by (symmetry; apply Z.ltb_lt; lia). simpl. now rewrite Ht.
  - intros Hn. destruct (i <? 0)%Z eqn:E.
    + apply Z.ltb_lt in E. replace (0 <=? i + n)%Z with false; [reflexivity|]. symmetry. apply Z.leb_gt. lia.
    + apply Z.ltb_ge in E. replace (i <? n)%Z with false; [now rewrite andb_false_r|]. symmetry. apply Z.ltb_ge. lia.
Qed.
End T.
