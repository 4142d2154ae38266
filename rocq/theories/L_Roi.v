(** Lemmas: get_array with a region of interest. *)
From Verif Require Import Base L_Base M_Files M_Reader M_Nd M_Cxi M_Roi S_Roi L_Stacking3 S_OpenRun L_Cxi7.
Set Implicit Arguments.
Unset Strict Implicit.
Local Open Scope list_scope.
Ltac Zify.zify_post_hook ::= Z.div_mod_to_equations.

Lemma expand_cons : forall n roi, np_expand (S n) (full_slice :: roi) = let* l := np_expand n roi in Ok (full_slice :: l).
Proof.
  intros n roi. unfold np_expand. cbn [filter is_ellipsis negb full_slice List.length].
  set (g := filter (fun i => negb (is_ellipsis i)) roi). set (e := List.length (filter is_ellipsis roi)).
  change (S n <? S (List.length g))%nat with (n <? List.length g)%nat.
  destruct (n <? List.length g)%nat; [reflexivity|]. change (S n - S (List.length g))%nat with (n - List.length g)%nat.
  destruct e as [|[|e]]; reflexivity.
Qed.

Lemma flat_map_plain : forall (m : list npix) l, Forall (fun i => is_ellipsis i = false) l ->
  flat_map (fun i => match i with IEllipsis => m | _ => [i] end) l = l.
Proof. intros m. induction 1 as [|i l H _ IH]; [reflexivity|]. destruct i; simpl in *; try discriminate; now rewrite IH. Qed.
Lemma split_ellipsis : forall ixs, List.length (filter is_ellipsis ixs) = 1%nat ->
  ixs = before_ellipsis ixs ++ IEllipsis :: after_ellipsis ixs.
Proof.
  induction ixs as [|i r IH]; simpl; intros H; [discriminate|]. destruct i; simpl in *; [f_equal; auto..|reflexivity].
Qed.

Lemma h5_expand_same : forall n roi full, np_expand n roi = Ok full -> h5_expand n roi = Ok full.
Proof.
  intros n roi full H. destruct (expand_spec H) as (_ & Lf & _). unfold np_expand in H. assert (C := count_split roi). unfold h5_expand.
  set (g := filter (fun i => negb (is_ellipsis i)) roi) in *.
  destruct (Nat.ltb_spec n (List.length g)) as [|Hl]; [discriminate|].
  destruct (List.length (filter is_ellipsis roi)) as [|[|]] eqn:E; [| |discriminate]; injection H as <-.
  - destruct (no_ellipsis E) as [H1 _]. replace (List.length g) with (List.length roi) in * by lia. change (1 <? 0)%nat with false. change (Nat.eqb 0 0) with true. cbn [andb].
    destruct (Nat.eqb_spec (List.length roi) n) as [Q|Q]; cbn [negb].
    + rewrite flat_map_plain by assumption. rewrite Q, Nat.ltb_irrefl, Nat.sub_diag. simpl. now rewrite app_nil_r.
    + rewrite flat_map_app, flat_map_plain by assumption. cbn [flat_map]. rewrite app_nil_r, (app_length roi [IEllipsis]). cbn [List.length].
      replace (n + 1 - (List.length roi + 1))%nat with (n - List.length roi)%nat by lia.
      rewrite Lf, Nat.ltb_irrefl. reflexivity.
  - destruct (one_ellipsis E) as (_ & H2 & H3 & H4). change (1 <? 1)%nat with false. change (Nat.eqb 1 0) with false. cbn [andb].
    assert (Q : (n + 1 - List.length roi = n - List.length g)%nat) by lia. rewrite Q.
    set (m := repeat full_slice _) in *. assert (X : flat_map (fun i => match i with IEllipsis => m | _ => [i] end) roi = before_ellipsis roi ++ m ++ after_ellipsis roi).
    { rewrite (split_ellipsis E) at 1. rewrite flat_map_app. cbn [flat_map]. now rewrite !flat_map_plain by assumption. }
    rewrite X.
    rewrite Lf, Nat.ltb_irrefl. reflexivity.
Qed.

Lemma pick_in_range : forall n ks, Forall (fun k => 0 <= k < Z.of_nat n)%Z ks -> pick (seq 0 n) ks = map Z.to_nat ks.
Proof.
  intros n. induction 1 as [|k ks H _ IH]; [reflexivity|]. cbn [pick map]. rewrite nth_error_nth' with (d := 0%nat) by (rewrite seq_length; lia).
  rewrite seq_nth by lia. now rewrite IH.
Qed.
Lemma slice_clip_bounds : forall v n, (0 <= n)%Z -> (0 <= slice_clip v n 0 n <= n)%Z.
Proof. intros v n H. unfold slice_clip. destruct (Z.ltb_spec v 0); lia. Qed.

Lemma h5_axis_same : forall n i s, forwards i -> resolve1 n i = Ok s -> h5_axis n i = Ok s.
Proof.
  intros n [z|[a b st]|] s F H; cbn [resolve1 h5_axis] in *; [| |discriminate].
  - unfold py_index in H. rewrite seq_length in H. destruct ((0 <=? _) && _)%Z eqn:B; [|discriminate].
    set (y := (if z <? 0 then z + Z.of_nat n else z)%Z) in *. apply andb_prop in B as [B1 B2].
    rewrite nth_error_nth' with (d := 0%nat) in H by (rewrite seq_length; lia). rewrite seq_nth in H by lia. exact H.
  - unfold py_slice in H. rewrite seq_length in H. unfold slice_indices in *. cbn [sl_step sl_start sl_stop] in *.
    set (step := match st with None => 1%Z | Some k => k end) in *.
    assert (P : (1 <= step)%Z) by (unfold step; destruct st; cbn in F; lia).
    replace (step =? 0)%Z with false in * by lia. replace (step <? 0)%Z with false in * by lia. cbn [bind] in *.
    set (lo := match a with None => _ | Some v => _ end) in *. set (hi := match b with None => _ | Some v => _ end) in *.
    assert (Lo : (0 <= lo <= Z.of_nat n)%Z) by (unfold lo; destruct a; [apply slice_clip_bounds|]; lia).
    assert (Hi : (0 <= hi <= Z.of_nat n)%Z) by (unfold hi; destruct b; [apply slice_clip_bounds|]; lia).
    clearbody lo hi step. replace (step <? 1)%Z with false by lia.
    assert (R : pick (seq 0 n) (py_range lo hi step) = map Z.to_nat (py_range lo hi step)).
    { apply pick_in_range. unfold py_range. apply Forall_map, Forall_forall. intros j Hj. apply in_seq in Hj. unfold range_len in Hj.
      replace (0 <? step)%Z with true in Hj by lia. destruct (Z.ltb_spec lo hi); [|simpl in Hj; lia].
      assert ((Z.of_nat j + 1) * step <= hi - lo + step - 1)%Z; [|nia].
      assert (Z.of_nat j + 1 <= (hi - lo + step - 1) / step)%Z by lia.
      assert (step * ((hi - lo + step - 1) / step) <= hi - lo + step - 1)%Z by (apply Z.mul_div_le; lia). nia. }
    rewrite R in H. rewrite <- H. unfold py_range. rewrite map_map. unfold range_len.
    replace (0 <? step)%Z with true by lia. destruct (Z.ltb_spec hi lo).
    + replace (lo <? hi)%Z with false by lia. reflexivity.
    + destruct (Z.ltb_spec lo hi).
      * do 3 f_equal. f_equal. replace (hi - lo + step - 1)%Z with (1 * step + (hi - lo - 1))%Z by lia. rewrite Z.div_add_l by lia. reflexivity.
      * replace (hi - lo - 1)%Z with (-1)%Z by lia. replace (-1 / step)%Z with (-1)%Z; [reflexivity|].
        apply Z.div_unique with (r := (step - 1)%Z); lia.
Qed.
Lemma h5_axes_same : forall sh ixs ss, Forall forwards ixs -> resolve sh ixs = Ok ss -> h5_axes sh ixs = Ok ss.
Proof.
  induction sh as [|n sh IH]; intros [|i ixs] ss F H; cbn [resolve h5_axes] in *; try discriminate; [assumption|].
  inversion F as [|? ? F1 F2]; subst. apply bind_ok in H as (s & E1 & H). apply bind_ok in H as (ss' & E2 & H).
  rewrite (h5_axis_same F1 E1). cbn [bind]. rewrite (IH _ _ F2 E2). exact H.
Qed.
Lemma expand_forwards : forall n roi full, Forall forwards roi -> np_expand n roi = Ok full -> Forall forwards full.
Proof.
  intros n roi full F H. unfold np_expand in H.
  set (g := filter (fun i => negb (is_ellipsis i)) roi) in *. destruct (n <? List.length g)%nat; [discriminate|].
  assert (R : forall m, Forall forwards (repeat full_slice m)) by (induction m; simpl; constructor; auto; exact I).
  destruct (List.length (filter is_ellipsis roi)) as [|[|]] eqn:E; [| |discriminate]; injection H as <-.
  - apply Forall_app; auto.
  - rewrite (split_ellipsis E) in F. apply Forall_app in F as [F1 F2]. inversion F2; subst. rewrite !Forall_app. auto.
Qed.

(** ** The array *)
Section R.
Context {V E : Type}.
Variable elt : V -> list nat -> E.
Variable junk : E.

Definition part (sels : list sel) (v : V) : list nat -> E := fun idx => elt v (sel_coords sels idx).

Lemma read_chunk_roi_same : forall s k roi full sels sh (c : chunk V) item, 
  (forall ds, ch_dataset s k c = Ok ds -> map Z.to_nat (ds_item ds) = item) ->
  h5_expand (List.length item) roi = Ok full -> h5_axes item full = Ok sels -> sel_shape sels = sh ->
  read_chunk_roi elt s k roi sh c = let* p := read_chunk s k c in Ok (fst p, map (part sels) (snd p)).
Proof.
  intros s k roi full sels sh c item Hi H1 H2 H3. unfold read_chunk_roi, read_chunk. destruct (zsum (ch_counts c) =? 0)%Z; [reflexivity|].
  destruct (ch_dataset s k c) as [ds|e]; [|reflexivity]. cbn [bind]. rewrite (Hi _ eq_refl), H1. cbn [bind]. rewrite H2. cbn [bind].
  unfold nat_list_eqb. destruct (list_eq_dec Nat.eq_dec (sel_shape sels) sh); [|contradiction]. cbn [negb]. rewrite map_length.
  destruct (Z.of_nat _ =? _)%Z; [reflexivity|]. destruct (ds_slice ds (ch_first c) (ch_first c + zsum (ch_counts c))) as [|r [|r' l]]; cbn [map bind fst snd]; try reflexivity.
  do 2 f_equal. induction (Z.to_nat (zsum (ch_counts c))) as [|m IH]; [reflexivity|]. cbn [repeat map]. f_equal. assumption.
Qed.

Lemma common_type_all : forall (l : list (dataset V)) ty, common_type l = Ok ty -> forall x, In x l -> ds_item x = snd ty.
Proof.
  intros [|x r] ty H; [discriminate|]. cbn [common_type] in H. destruct (forallb _ r) eqn:F1; [|discriminate].
  destruct (forallb (fun y => String.eqb _ _) r); [|discriminate]. cbn [negb] in H. injection H as <-. intros y [->|K]; [reflexivity|].
  rewrite forallb_forall in F1. specialize (F1 _ K). unfold zlist_eqb in F1. destruct (list_eq_dec Z.eq_dec (ds_item x) (ds_item y)); [now symmetry|discriminate].
Qed.

Lemma mapM_compose : forall A B C (f : A -> res B) (h : B -> C) l,
  mapM (fun x => let* p := f x in Ok (h p)) l = let* ps := mapM f l in Ok (map h ps).
Proof.
  intros A B C f h l. induction l as [|x l IH]; [reflexivity|]. cbn [mapM]. destruct (f x); [|reflexivity]. cbn [bind].
  rewrite IH. destruct (mapM f l); reflexivity.
Qed.
Lemma mapM_ext_in : forall A B (f g : A -> res B) l, (forall x, In x l -> f x = g x) -> mapM f l = mapM g l.
Proof. intros A B f g l. induction l as [|x l IH]; intros H; [reflexivity|]. cbn [mapM]. rewrite H by now left. rewrite IH by (intros; apply H; now right). reflexivity. Qed.
Lemma flat_map_map : forall A B C (f : A -> B) (g : B -> list C) l, flat_map g (map f l) = flat_map (fun x => g (f x)) l.
Proof. induction l; simpl; congruence. Qed.
Lemma map_flat_map : forall A B C (g : B -> C) (f : A -> list B) l, map g (flat_map f l) = flat_map (fun x => map g (f x)) l.
Proof. induction l; simpl; [reflexivity|]. now rewrite map_app, IHl. Qed.

Definition dim_names (n : nat) : list string :=
  map (fun i => ("dim_" ++ str_of_int (Z.of_nat i))%string) (seq 0 n).

(** What [get_array_roi] does, in terms of [get_array]. *)
Lemma get_array_roi_eq : forall d s k extra r roi, roi_tuple r = Ok roi -> Forall forwards roi ->
  match get_array d s k with
  | Ok a =>
      match nd_index (as_nd elt junk a) (full_slice :: roi) with
      | Ok b =>
          exists c, nd_same c b /\
          get_array_roi elt junk d s k extra r =
            let names := match extra with None => dim_names (nd_ndim b - 1) | Some l => l end in
            if Nat.eqb (S (List.length names)) (nd_ndim b) then Ok (mk_ra ("trainId"%string :: names) (la_labels a) c) else Err EValueError
      | Err e => get_array_roi elt junk d s k extra r = Err e
      end
  | Err _ => exists e, get_array_roi elt junk d s k extra r = Err e
  end.
Proof.
  intros d s k extra r roi Hr HF. unfold get_array, get_array_roi. rewrite Hr. cbn [bind].
  destruct (check_field d s k) as [u|]; [|eexists; reflexivity]. cbn [bind].
  destruct (sorted_chunks d s k) as [chunks|]; [|eexists; reflexivity]. cbn [bind].
  destruct (mapM (ch_dataset s k) chunks) as [dss|] eqn:Ed; [|eexists; reflexivity]. cbn [bind].
  destruct (common_type dss) as [ty|] eqn:Et; [|eexists; reflexivity]. cbn [bind].
  set (item := map Z.to_nat (snd ty)). cbn [List.length]. rewrite expand_cons.
  assert (K : forall X, (np_expand (List.length item) roi = Err X \/ exists full, np_expand (List.length item) roi = Ok full /\ resolve item full = Err X) ->
     forall n, (let* full := (let* l := np_expand (List.length item) roi in Ok (full_slice :: l)) in resolve (n :: item) full) = Err X).
  { intros X [H|(full & H & H')] n; rewrite H; [reflexivity|]. cbn [bind resolve]. rewrite full_slice_seq. cbn [bind]. now rewrite H'. }
  assert (K' : forall full sels, np_expand (List.length item) roi = Ok full -> resolve item full = Ok sels ->
     forall n, (let* full := (let* l := np_expand (List.length item) roi in Ok (full_slice :: l)) in resolve (n :: item) full) = Ok (Take (seq 0 n) :: sels)).
  { intros full sels H H' n. rewrite H. cbn [bind resolve]. rewrite full_slice_seq. cbn [bind]. now rewrite H'. }
  assert (Assoc : forall A (g : list sel -> res A) n,
     (let* full := (let* l := np_expand (List.length item) roi in Ok (full_slice :: l)) in let* sels := resolve (n :: item) full in g sels) =
     let* sels := (let* full := (let* l := np_expand (List.length item) roi in Ok (full_slice :: l)) in resolve (n :: item) full) in g sels).
  { intros A g n. destruct (np_expand (List.length item) roi); reflexivity. }
  rewrite Assoc.
  assert (Dec : (exists full sels, np_expand (List.length item) roi = Ok full /\ resolve item full = Ok sels) \/
                exists X, np_expand (List.length item) roi = Err X \/ exists full, np_expand (List.length item) roi = Ok full /\ resolve item full = Err X).
  { destruct (np_expand (List.length item) roi) as [full|X]; [|right; eauto]. destruct (resolve item full) as [sels|X] eqn:R; [left; eauto|right; eauto 6]. }
  assert (Ix : forall a, map Z.to_nat (la_item a) = item -> nd_index (as_nd elt junk a) (full_slice :: roi) =
    let* sels := (let* full := (let* l := np_expand (List.length item) roi in Ok (full_slice :: l)) in resolve (List.length (la_rows a) :: item) full) in
    Ok (mk_nd (la_dtype a) (sel_shape sels) (fun idx => nd_at (as_nd elt junk a) (sel_coords sels idx)))).
  { intros a Ha. unfold nd_index, nd_ndim, as_nd. cbn [nd_shape nd_dtype List.length]. rewrite Ha, expand_cons, Assoc. reflexivity. }
  destruct Dec as [(full & sels & H1 & H2)|(X & HX)].
  - rewrite (K' _ _ H1 H2 0%nat). cbn [bind sel_shape List.tl].
    assert (HF' : Forall forwards full) by exact (expand_forwards HF H1).
    assert (R : mapM (read_chunk_roi elt s k roi (sel_shape sels)) chunks = let* ps := mapM (read_chunk s k) chunks in Ok (map (fun p => (fst p, map (part sels) (snd p))) ps)).
    { rewrite <- mapM_compose. apply mapM_ext_in. intros c Hc. apply read_chunk_roi_same with (full := full) (item := item).
      - intros ds Hds. unfold item. rewrite (common_type_all Et (x := ds)); [reflexivity|]. 
        apply mapM_ok_iff in Ed. clear - Ed Hc Hds. induction Ed as [|x y l l' Hxy _ IH]; [destruct Hc|]. destruct Hc as [->|Hc]; [left; congruence|right; auto].
      - now apply h5_expand_same.
      - now apply h5_axes_same.
      - reflexivity. }
    rewrite R. destruct (mapM (read_chunk s k) chunks) as [ps|e] eqn:Ep; [|eexists; reflexivity]. cbn [bind].
    rewrite !flat_map_map. cbn [fst snd]. rewrite <- map_flat_map. set (rows := flat_map snd ps). set (labels := flat_map fst ps).
    rewrite map_length.
    set (c := stack_rows junk (fst ty) (sel_shape sels) (map (part sels) rows)).
    assert (Nc : nd_ndim c = S (List.length (sel_shape sels))) by reflexivity. rewrite Nc.
    change (List.length labels) with (List.length (flat_map fst ps)). fold labels.
    destruct (Nat.eqb (List.length labels) (List.length rows)) eqn:El.
    + rewrite Ix by reflexivity. cbn [la_rows]. rewrite (K' _ _ H1 H2). cbn [bind].
      exists c. split.
      * split; [reflexivity|]. split; [cbn; now rewrite map_length, seq_length|]. intros idx Hin.
        cbn [nd_shape c stack_rows nd_at sel_coords as_nd la_rows]. unfold c in Hin. cbn [nd_shape stack_rows] in Hin. inversion Hin as [|i n idx' sh Hi Hrest]; subst.
        rewrite map_length in Hi. cbn [nd_at]. rewrite seq_nth by assumption. cbn [Nat.add]. rewrite nth_error_map.
        destruct (nth_error rows i) as [v|] eqn:Ev; [reflexivity|]. apply nth_error_None in Ev. lia.
      * unfold nd_ndim. cbn [nd_shape sel_shape List.length la_labels Nat.sub]. rewrite ?Nat.sub_0_r. fold (dim_names (List.length (sel_shape sels))).
        set (names := match extra with None => _ | Some l => l end). cbv zeta.
        change (Nat.eqb (S (List.length names)) (S (List.length (sel_shape sels)))) with (Nat.eqb (List.length names) (List.length (sel_shape sels))).
        destruct (Nat.eqb (List.length names) _); reflexivity.
    + set (names := match extra with None => _ | Some l => l end). destruct (negb _); eexists; reflexivity.
  - rewrite (K _ HX 0%nat). cbn [bind]. destruct (mapM (read_chunk s k) chunks) as [ps|e] eqn:Ep; [|eexists; reflexivity]. cbn [bind].
    destruct (Nat.eqb _ _); [|eexists; reflexivity]. rewrite Ix by reflexivity. cbn [la_rows]. rewrite (K _ HX). reflexivity.
Qed.
End R.

(** ** Special cases *)
Section Special.
Context {V E : Type}.
Variable elt : V -> list nat -> E.
Variable junk : E.
Variables (d : dcoll V) (s k : string) (a : larray V).
Hypothesis Ha : get_array d s k = Ok a.

Lemma get_array_roi_sels : forall i full sels, forwards i ->
  np_expand (List.length (la_item a)) [i] = Ok full -> resolve (map Z.to_nat (la_item a)) full = Ok sels ->
  exists c, get_array_roi elt junk d s k None (ByOne i) = Ok c /\ ra_labels c = la_labels a /\
    nd_same (ra_data c) (mk_nd (la_dtype a) (List.length (la_rows a) :: sel_shape sels)
                           (fun idx => nd_at (as_nd elt junk a) (sel_coords (Take (seq 0 (List.length (la_rows a))) :: sels) idx))).
Proof.
  intros i full sels F H1 H2. pose proof (@get_array_roi_eq V E elt junk d s k None (ByOne i) [i] eq_refl (Forall_cons _ F (Forall_nil _))) as H. rewrite Ha in H.
  assert (X : nd_index (as_nd elt junk a) (full_slice :: [i]) = Ok (mk_nd (la_dtype a) (List.length (la_rows a) :: sel_shape sels)
                           (fun idx => nd_at (as_nd elt junk a) (sel_coords (Take (seq 0 (List.length (la_rows a))) :: sels) idx)))).
  { unfold nd_index, nd_ndim. cbn [nd_shape as_nd List.length]. rewrite expand_cons, map_length, H1. cbn [bind resolve]. rewrite full_slice_seq. cbn [bind].
    rewrite H2. cbn [bind sel_shape nd_dtype as_nd]. now rewrite seq_length. }
  rewrite X in H. destruct H as (c & Hs & H). unfold nd_ndim in H. cbn [nd_shape List.length Nat.sub] in H. rewrite Nat.sub_0_r in H.
  cbv zeta in H. unfold dim_names in H. rewrite map_length, seq_length, Nat.eqb_refl in H. eexists. split; [exact H|]. split; [reflexivity|]. exact Hs.
Qed.

Lemma resolve_full : forall sh, resolve sh (repeat full_slice (List.length sh)) = Ok (map (fun n => Take (seq 0 n)) sh).
Proof. induction sh as [|n sh IH]; [reflexivity|]. cbn [repeat List.length resolve map]. rewrite full_slice_seq. cbn [bind]. now rewrite IH. Qed.
Lemma full_shape : forall sh, sel_shape (map (fun n => Take (seq 0 n)) sh) = sh.
Proof. induction sh as [|n sh IH]; [reflexivity|]. cbn [map sel_shape]. now rewrite IH, seq_length. Qed.
Lemma full_coords : forall sh idx, in_shape idx sh -> sel_coords (map (fun n => Take (seq 0 n)) sh) idx = idx.
Proof. induction sh as [|n sh IH]; intros idx H; inversion H; subst; [reflexivity|]. cbn [map sel_coords]. rewrite seq_nth by assumption. now rewrite IH. Qed.

Lemma get_array_roi_default : exists c, get_array_roi elt junk d s k None (ByOne IEllipsis) = Ok c /\
  ra_labels c = la_labels a /\ nd_same (ra_data c) (as_nd elt junk a).
Proof.
  destruct (@get_array_roi_sels IEllipsis (repeat full_slice (List.length (la_item a))) (map (fun n => Take (seq 0 n)) (map Z.to_nat (la_item a))) I) as (c & Hc & Hl & S1 & S2 & S3).
  - unfold np_expand. cbn [filter is_ellipsis negb List.length before_ellipsis after_ellipsis app]. rewrite Nat.sub_0_r. cbn [Nat.ltb Nat.leb]. now rewrite app_nil_r.
  - rewrite <- (map_length Z.to_nat). apply resolve_full.
  - exists c. split; [assumption|]. split; [assumption|]. cbn [nd_shape nd_dtype nd_at] in *. rewrite full_shape in S2. split; [assumption|]. split; [assumption|].
    intros idx Hi. rewrite S3 by assumption. rewrite S2 in Hi. cbn [as_nd nd_at]. inversion Hi; subst. cbn [sel_coords]. rewrite seq_nth by assumption. now rewrite full_coords.
Qed.

Lemma expand_one : forall i n, is_ellipsis i = false -> np_expand (List.length [n : Z]) [i] = Ok [i].
Proof. intros i n H. unfold np_expand. cbn [filter]. rewrite H. reflexivity. Qed.

Lemma map_shift : forall lo m x, (0 <= lo)%Z -> map (fun j => Z.to_nat (lo + Z.of_nat j * 1)) (seq x m) = seq (Z.to_nat lo + x) m.
Proof. intros lo m. induction m as [|m IH]; intros x H; [reflexivity|]. cbn [seq map]. f_equal; [lia|]. rewrite IH by assumption. f_equal. lia. Qed.
Lemma get_array_roi_window : forall n lo hi, la_item a = [n] -> (0 <= lo <= hi)%Z -> (hi <= n)%Z ->
  exists c, get_array_roi elt junk d s k None (ByOne (ISlice (mk_slice (Some lo) (Some hi) None))) = Ok c /\
    nd_shape (ra_data c) = [List.length (la_rows a); Z.to_nat (hi - lo)] /\
    forall i v j, nth_error (la_rows a) i = Some v -> (Z.of_nat j < hi - lo)%Z ->
      nd_at (ra_data c) [i; j] = elt v [Z.to_nat lo + j]%nat.
Proof.
  intros n lo hi Hi H1 H2. set (x := ISlice _).
  assert (L : range_len lo hi 1 = (hi - lo)%Z).
  { unfold range_len. change (0 <? 1)%Z with true. cbn iota. destruct (Z.ltb_spec lo hi); rewrite ?Z.div_1_r; lia. }
  assert (P : resolve1 (Z.to_nat n) x = Ok (Take (seq (Z.to_nat lo) (Z.to_nat (hi - lo))))).
  { unfold x, resolve1, py_slice. rewrite seq_length. unfold slice_indices. cbn [sl_step sl_start sl_stop bind Z.eqb Z.ltb Z.compare].
    unfold slice_clip. replace (lo <? 0)%Z with false by lia. replace (hi <? 0)%Z with false by lia.
    rewrite Z2Nat.id by lia. rewrite !Z.min_l by lia. unfold py_range. rewrite L, pick_in_range.
    - rewrite map_map, map_shift by lia. now rewrite Nat.add_0_r.
    - apply Forall_map, Forall_forall. intros j Hj. apply in_seq in Hj. lia. }
  destruct (@get_array_roi_sels x [x] [Take (seq (Z.to_nat lo) (Z.to_nat (hi - lo)))] I) as (c & Hc & _ & _ & S2 & S3).
  - rewrite Hi. now apply expand_one.
  - rewrite Hi. cbn [map resolve]. rewrite P. reflexivity.
  - exists c. split; [assumption|]. cbn [nd_shape sel_shape] in S2. rewrite seq_length in S2. split; [assumption|]. intros i v j Hv Hj.
    assert (Li : (i < List.length (la_rows a))%nat) by (apply nth_error_Some; congruence).
    rewrite S3; [|rewrite S2; repeat constructor; lia]. cbn [nd_at as_nd sel_coords]. rewrite seq_nth by assumption. cbn [Nat.add]. rewrite Hv. rewrite seq_nth by lia. reflexivity.
Qed.

Lemma get_array_roi_int : forall n z, la_item a = [n] -> (- n <= z < n)%Z ->
  exists c, get_array_roi elt junk d s k None (ByOne (IInt z)) = Ok c /\
    nd_shape (ra_data c) = [List.length (la_rows a)] /\
    forall i v, nth_error (la_rows a) i = Some v ->
      nd_at (ra_data c) [i] = elt v [Z.to_nat (if Z.ltb z 0 then z + n else z)%Z].
Proof.
  intros n z Hi Hz. set (y := (if z <? 0 then z + n else z)%Z).
  assert (Hy : (0 <= y < n)%Z) by (unfold y; destruct (Z.ltb_spec z 0); lia).
  assert (P : resolve1 (Z.to_nat n) (IInt z) = Ok (Fix (Z.to_nat y))).
  { cbn [resolve1]. unfold py_index. rewrite seq_length, Z2Nat.id by lia. fold y. replace ((0 <=? y) && (y <? n))%Z with true by lia.
    rewrite nth_error_nth' with (d := 0%nat) by (rewrite seq_length; lia). rewrite seq_nth by lia. reflexivity. }
  destruct (@get_array_roi_sels (IInt z) [IInt z] [Fix (Z.to_nat y)] I) as (c & Hc & _ & _ & S2 & S3).
  - rewrite Hi. now apply expand_one.
  - rewrite Hi. cbn [map resolve]. rewrite P. reflexivity.
  - exists c. split; [assumption|]. split; [assumption|]. intros i v Hv.
    assert (Li : (i < List.length (la_rows a))%nat) by (apply nth_error_Some; congruence).
    rewrite S3; [|rewrite S2; repeat constructor; lia]. cbn [nd_at as_nd sel_coords]. rewrite seq_nth by assumption. cbn [Nat.add]. now rewrite Hv.
Qed.
End Special.

Lemma Ok_inj : forall A (a b : A), Ok a = Ok b -> a = b.
Proof. congruence. Qed.
Section Names.
Context {V E : Type}.
Variable elt : V -> list nat -> E.
Variable junk : E.
Variables (d : dcoll V) (s k : string) (r : roi_arg).

Lemma get_array_roi_given : forall names c, get_array_roi elt junk d s k None r = Ok c ->
  get_array_roi elt junk d s k (Some names) r =
    if Nat.eqb (S (List.length names)) (nd_ndim (ra_data c)) then Ok (mk_ra ("trainId"%string :: names) (ra_labels c) (ra_data c))
    else Err EValueError.
Proof.
  intros names c H. unfold get_array_roi in *.
  destruct (check_field d s k) as [u|]; [|discriminate]. cbn [bind] in *. destruct (roi_tuple r) as [roi|]; [|discriminate]. cbn [bind] in *.
  destruct (sorted_chunks d s k) as [chunks|]; [|discriminate]. cbn [bind] in *. destruct (mapM (ch_dataset s k) chunks) as [dss|]; [|discriminate]. cbn [bind] in *.
  destruct (common_type dss) as [ty|]; [|discriminate]. cbn [bind] in *. cbv zeta in *. destruct (np_expand _ _) as [full|]; [|discriminate]. cbn [bind] in *.
  destruct (resolve _ full) as [sels|]; [|discriminate]. cbn [bind] in *. destruct (mapM _ chunks) as [parts|]; [|discriminate]. cbn [bind] in *.
  destruct (negb _) in H; [discriminate|]. destruct (Nat.eqb (List.length (flat_map fst parts)) _) in *; [|discriminate].
  apply Ok_inj in H. subst c. cbn [ra_labels ra_data List.length]. destruct (Nat.eqb (S (List.length names)) _); reflexivity.
Qed.

Lemma get_array_roi_names : forall c, get_array_roi elt junk d s k None r = Ok c ->
  List.length (ra_dims c) = nd_ndim (ra_data c) /\ nth_error (ra_dims c) 0 = Some "trainId"%string /\
  forall i, (S i < nd_ndim (ra_data c))%nat ->
    exists num, nth_error (ra_dims c) (S i) = Some ("dim_" ++ num)%string /\ numeral num (Z.of_nat i).
Proof.
  intros c H. unfold get_array_roi in H.
  repeat (apply bind_ok in H as (? & _ & H)). destruct (negb _) eqn:En in H; [discriminate|]. destruct (Nat.eqb (List.length (flat_map fst _)) _) in H; [|discriminate].
  apply Ok_inj in H. subst c. cbn [ra_dims ra_data]. apply negb_false_iff, Nat.eqb_eq in En. split; [exact En|]. split; [reflexivity|].
  intros i Hi. exists (str_of_int (Z.of_nat i)). split.
  - cbn [nth_error]. rewrite nth_error_map. rewrite nth_error_nth' with (d := 0%nat) by (rewrite seq_length; lia). rewrite seq_nth by lia. reflexivity.
  - destruct (str_of_int_spec (z := Z.of_nat i)) as (A & B & C); [lia|]. split; auto.
Qed.
End Names.
