(** Lemmas: indexing the lazy view and the stacked array. *)
From Verif Require Import Base PyStr M_Nd M_Stacking S_Stacking L_Base L_Stacking.
Set Implicit Arguments.
Unset Strict Implicit.
Local Open Scope list_scope.

(** ** Completing index expressions *)
Lemma count_split : forall ixs, (List.length (filter is_ellipsis ixs) + List.length (filter (fun i => negb (is_ellipsis i)) ixs) = List.length ixs)%nat.
Proof. induction ixs as [|i r IH]; simpl; [reflexivity|]. destruct (is_ellipsis i); simpl; lia. Qed.
Lemma no_ellipsis : forall ixs, List.length (filter is_ellipsis ixs) = 0%nat -> Forall (fun i => is_ellipsis i = false) ixs /\ existsb is_ellipsis ixs = false.
Proof.
  induction ixs as [|i r IH]; simpl; intros H; [split; [constructor|reflexivity]|]. destruct (is_ellipsis i) eqn:E; simpl in H; [discriminate|].
  destruct (IH H). split; [now constructor|assumption].
Qed.
Lemma one_ellipsis : forall ixs, List.length (filter is_ellipsis ixs) = 1%nat -> existsb is_ellipsis ixs = true /\
  Forall (fun i => is_ellipsis i = false) (before_ellipsis ixs) /\ Forall (fun i => is_ellipsis i = false) (after_ellipsis ixs) /\
  List.length ixs = S (List.length (before_ellipsis ixs) + List.length (after_ellipsis ixs)).
Proof.
  induction ixs as [|i r IH]; simpl; intros H; [discriminate|]. destruct i; simpl in *.
  - destruct (IH H) as (H1 & H2 & H3 & H4). split; [assumption|]. split; [now constructor|]. split; [assumption|lia].
  - destruct (IH H) as (H1 & H2 & H3 & H4). split; [assumption|]. split; [now constructor|]. split; [assumption|lia].
  - injection H as H. apply no_ellipsis in H. split; [reflexivity|]. split; [constructor|]. split; [tauto|]. reflexivity.
Qed.
Lemma full_no_ellipsis : forall n, Forall (fun i => is_ellipsis i = false) (repeat full_slice n).
Proof. induction n; simpl; constructor; auto. Qed.
Lemma expand_spec : forall ndim ixs full, np_expand ndim ixs = Ok full ->
  view_expand ndim ixs = full /\ List.length full = ndim /\ Forall (fun i => is_ellipsis i = false) full.
Proof.
  intros ndim ixs full H. unfold np_expand in H. assert (C := count_split ixs). unfold view_expand.
  set (g := filter (fun i => negb (is_ellipsis i)) ixs) in *.
  destruct (Nat.ltb_spec ndim (List.length g)) as [|Hl]; [discriminate|].
  destruct (List.length (filter is_ellipsis ixs)) as [|[|]] eqn:E; [| |discriminate]; injection H as <-.
  - destruct (no_ellipsis E) as [H1 H2]. rewrite H2. replace (List.length g) with (List.length ixs) in * by lia. split; [reflexivity|].
    split; [rewrite app_length, repeat_length; lia|]. apply Forall_app; split; [assumption|apply full_no_ellipsis].
  - destruct (one_ellipsis E) as (H1 & H2 & H3 & H4). rewrite H1. replace (S ndim - List.length ixs)%nat with (ndim - List.length g)%nat by lia. split; [reflexivity|].
    split; [rewrite !app_length, repeat_length; lia|]. rewrite !Forall_app. repeat split; auto using full_no_ellipsis.
Qed.
Lemma no_ellipsis_intro : forall ixs, Forall (fun i => is_ellipsis i = false) ixs -> filter is_ellipsis ixs = [] /\ filter (fun i => negb (is_ellipsis i)) ixs = ixs.
Proof. induction ixs as [|i r IH]; intros H; [auto|]. inversion H as [|? ? H1 H2]; subst. destruct (IH H2) as [A B]. simpl. rewrite H1. simpl. now rewrite A, B. Qed.
Lemma expand_full : forall ixs, Forall (fun i => is_ellipsis i = false) ixs -> np_expand (List.length ixs) ixs = Ok ixs.
Proof.
  intros ixs H. destruct (no_ellipsis_intro H) as [A B]. unfold np_expand. rewrite A, B. rewrite Nat.ltb_irrefl, Nat.sub_diag. simpl. now rewrite app_nil_r.
Qed.

(** ** Resolving index expressions *)
Lemma resolve_app : forall sh1 i1 sh2 i2, List.length sh1 = List.length i1 ->
  resolve (sh1 ++ sh2) (i1 ++ i2) = let* a := resolve sh1 i1 in let* b := resolve sh2 i2 in Ok (a ++ b).
Proof.
  induction sh1 as [|n sh1 IH]; intros i1 sh2 i2 H; destruct i1 as [|i i1]; try discriminate; simpl.
  - destruct (resolve sh2 i2); reflexivity.
  - destruct (resolve1 n i) as [s|]; [|reflexivity]. cbn [bind]. rewrite IH by (simpl in H; lia).
    destruct (resolve sh1 i1) as [a|]; [|reflexivity]. cbn [bind]. destruct (resolve sh2 i2); reflexivity.
Qed.
Lemma resolve_length : forall sh ixs ss, resolve sh ixs = Ok ss -> List.length ss = List.length sh /\ List.length (sel_shape ss) = kept ixs.
Proof.
  induction sh as [|n sh IH]; intros [|i ixs] ss H; simpl in H; try discriminate; [injection H as <-; auto|].
  destruct (resolve1 n i) as [s|] eqn:E; [|discriminate]. cbn [bind] in H. destruct (resolve sh ixs) as [ss'|] eqn:E2; [|discriminate]. injection H as <-.
  destruct (IH _ _ E2) as [A B]. split; [simpl; congruence|]. destruct i as [z|s0|]; simpl in E.
  - destruct (py_index (seq 0 n) z); [|discriminate]. injection E as <-. exact B.
  - destruct (py_slice (seq 0 n) s0); [|discriminate]. injection E as <-. simpl. now rewrite B.
  - discriminate.
Qed.
Lemma sel_coords_length : forall ss idx, List.length (sel_coords ss idx) = List.length ss.
Proof. induction ss as [|[k|ps] ss IH]; intros idx; simpl; [reflexivity|now rewrite IH|]. destruct idx; simpl; now rewrite IH. Qed.
Lemma sel_shape_app : forall a b, sel_shape (a ++ b) = sel_shape a ++ sel_shape b.
Proof. induction a as [|[k|ps] a IH]; intros b; simpl; [reflexivity|apply IH|now rewrite IH]. Qed.
Lemma sel_coords_app : forall a b i1 i2, List.length i1 = List.length (sel_shape a) ->
  sel_coords (a ++ b) (i1 ++ i2) = sel_coords a i1 ++ sel_coords b i2.
Proof.
  induction a as [|[k|ps] a IH]; intros b i1 i2 H; simpl in *.
  - destruct i1; [reflexivity|discriminate].
  - f_equal. apply IH. assumption.
  - destruct i1 as [|i i1]; [discriminate|]. simpl. f_equal. apply IH. simpl in H. lia.
Qed.
Lemma pick_seq : forall n k m, (k + m <= n)%nat -> pick (seq 0 n) (map (fun j => (0 + Z.of_nat j * 1)%Z) (seq k m)) = seq k m.
Proof.
  intros n k m. revert k. induction m as [|m IH]; intros k H; [reflexivity|]. cbn [seq map pick].
  replace (Z.to_nat (0 + Z.of_nat k * 1)) with k by lia. rewrite nth_error_nth' with (d := 0%nat) by (rewrite seq_length; lia).
  rewrite seq_nth by lia. rewrite IH by lia. reflexivity.
Qed.
Lemma full_slice_seq : forall n, resolve1 n full_slice = Ok (Take (seq 0 n)).
Proof.
  intros n. unfold resolve1, full_slice, py_slice. rewrite seq_length. unfold slice_indices. cbn [sl_step sl_start sl_stop bind Z.eqb Z.ltb Z.compare].
  unfold py_range. replace (Z.to_nat (range_len 0 (Z.of_nat n) 1)) with n. { rewrite pick_seq by lia. reflexivity. }
  unfold range_len. destruct (Z.ltb_spec 0 (Z.of_nat n)); cbn [Z.ltb Z.compare]; [|lia]. rewrite Z.div_1_r. lia.
Qed.

Lemma split_at : forall A (l : list A) k x, nth_error l k = Some x -> l = firstn k l ++ x :: skipn (S k) l.
Proof. intros A. induction l as [|y l IH]; intros [|k] x H; simpl in *; try discriminate; [congruence|]. f_equal. now apply IH. Qed.
Lemma resolve_insert : forall sh k n i1 i2 i, List.length i1 = k -> List.length sh = List.length (i1 ++ i2) ->
  match resolve1 n i, resolve sh (i1 ++ i2) with
  | Ok s, Ok ss => exists a b, ss = a ++ b /\ List.length a = k /\ List.length (sel_shape b) = kept i2 /\ List.length (sel_shape a) = kept i1 /\
                   resolve (insert_at k n sh) (i1 ++ i :: i2) = Ok (a ++ s :: b)
  | _, _ => exists e, resolve (insert_at k n sh) (i1 ++ i :: i2) = Err e
  end.
Proof.
  intros sh k n i1 i2 i Hk Hl. rewrite app_length in Hl. unfold insert_at.
  assert (E0 : resolve sh (i1 ++ i2) = resolve (firstn k sh ++ skipn k sh) (i1 ++ i2)) by now rewrite firstn_skipn. rewrite E0. clear E0.
  assert (L : List.length (firstn k sh) = List.length i1) by (rewrite firstn_length_le; lia).
  rewrite !resolve_app by assumption. cbn [resolve].
  destruct (resolve (firstn k sh) i1) as [a|e] eqn:Ea; cbn [bind].
  - destruct (resolve1 n i) as [s|e] eqn:Es; cbn [bind]; [|eauto].
    destruct (resolve (skipn k sh) i2) as [b|e] eqn:Eb; cbn [bind]; [|eauto].
    exists a, b. destruct (resolve_length Ea), (resolve_length Eb). repeat split; [lia|assumption|assumption].
  - destruct (resolve1 n i); eauto.
Qed.

Section V.
Context {V : Type}.
Variable cast : string -> V -> V.
Notation nd := (nd V).
Notation sview := (sview (V := V)).
Implicit Types (v u : sview) (a b : nd).

Lemma good_axis : forall v, good_view v -> norm_axis (S (List.length (sv_mod_shape v))) (sv_axis v) = Ok (Z.to_nat (sv_axis v)) /\
  (Z.to_nat (sv_axis v) <= List.length (sv_mod_shape v))%nat.
Proof.
  intros v (H & _). split; [|lia]. unfold norm_axis. destruct (Z.ltb_spec (sv_axis v) 0); [lia|].
  destruct (Z.leb_spec 0 (sv_axis v)); [|lia]. destruct (Z.ltb_spec (sv_axis v) (Z.of_nat (S (List.length (sv_mod_shape v))))); [reflexivity|lia].
Qed.
Lemma good_asarray : forall v, good_view v -> exists r, asarray cast v = Ok r /\
  nd_shape r = insert_at (Z.to_nat (sv_axis v)) (Z.to_nat (sv_n v)) (sv_mod_shape v) /\ nd_dtype r = sv_dtype v /\
  forall m idx, (Z.to_nat (sv_axis v) <= List.length idx)%nat ->
    nd_at r (insert_at (Z.to_nat (sv_axis v)) m idx) = module_at cast (sv_data v) (sv_dtype v) (sv_fill v) m idx.
Proof.
  intros v Hv. assert (A := good_axis Hv). destruct Hv as (H1 & H2 & H3 & H4). apply asarray_ok; [assumption| |tauto].
  intros m a K. destruct (H4 _ _ K) as (K1 & K2 & _). auto.
Qed.
Lemma py_upto_pos : forall A (l : list A) k, (0 <= k)%Z -> py_upto l k = firstn (Z.to_nat k) l.
Proof. intros A l k H. unfold py_upto. destruct (Z.ltb_spec k 0); [lia|reflexivity]. Qed.
Lemma py_from_pos : forall A (l : list A) k, (0 <= k)%Z -> py_from l (k + 1) = skipn (S (Z.to_nat k)) l.
Proof. intros A l k H. unfold py_from. destruct (Z.ltb_spec (k + 1) 0); [lia|]. f_equal. lia. Qed.
Lemma view_getitem_eq : forall v ixs full i, good_view v -> np_expand (sv_ndim v) ixs = Ok full -> nth_error full (Z.to_nat (sv_axis v)) = Some i ->
  view_getitem cast v ixs =
  let mod_slices := firstn (Z.to_nat (sv_axis v)) full ++ skipn (S (Z.to_nat (sv_axis v))) full in
  match i with
  | IInt z => let* r := get_single_mod cast v (if z <? 0 then z + sv_n v else z)%Z mod_slices in Ok (VArray (fst r), snd r)
  | _ => if is_full_slice i then let* u := get_all_mods v mod_slices in Ok (VView u, v) else Err EException
  end.
Proof.
  intros v ixs full i (H1 & _) He Hi. unfold view_getitem. destruct (expand_spec He) as (-> & Hl & _). unfold py_index.
  assert (K : (Z.to_nat (sv_axis v) < List.length full)%nat) by (apply nth_error_Some; congruence).
  destruct (Z.ltb_spec (sv_axis v) 0); [lia|]. destruct (Z.leb_spec 0 (sv_axis v)); [|lia].
  destruct (Z.ltb_spec (sv_axis v) (Z.of_nat (List.length full))); [|lia]. cbn [andb]. rewrite Hi. cbn [bind].
  rewrite py_upto_pos, py_from_pos by lia. reflexivity.
Qed.
Lemma nd_index_mod : forall a ixs, nd_ndim a = List.length ixs -> Forall (fun i => is_ellipsis i = false) ixs ->
  nd_index a ixs = let* ss := resolve (nd_shape a) ixs in Ok (mk_nd (nd_dtype a) (sel_shape ss) (fun idx => nd_at a (sel_coords ss idx))).
Proof. intros a ixs H1 H2. unfold nd_index. rewrite H1, expand_full by assumption. reflexivity. Qed.

Lemma insert_at_app : forall A k (x : A) l1 l2, List.length l1 = k -> insert_at k x (l1 ++ l2) = l1 ++ x :: l2.
Proof. intros A k x l1 l2 <-. unfold insert_at. rewrite firstn_app, firstn_all, skipn_app, skipn_all, Nat.sub_diag. simpl. now rewrite app_nil_r. Qed.
Lemma split_list : forall A (l : list A) n m, List.length l = (n + m)%nat -> exists l1 l2, l = l1 ++ l2 /\ List.length l1 = n /\ List.length l2 = m.
Proof.
  intros A l n m H. exists (firstn n l), (skipn n l). split; [now rewrite firstn_skipn|]. rewrite firstn_length_le, skipn_length by lia. lia.
Qed.
Lemma good_set : forall v j, good_view v -> (0 <= j < sv_n v)%Z -> zd_get j (sv_data v) = None ->
  let v' := mk_view (zd_set j (nd_full cast (sv_mod_shape v) (sv_fill v) (sv_dtype v)) (sv_data v)) (sv_n v) (sv_mod_shape v) (sv_dtype v) (sv_fill v) (sv_axis v) in
  good_view v' /\ forall r, asarray cast v = Ok r -> exists r', asarray cast v' = Ok r' /\ nd_same r' r.
Proof.
  intros v j Hv Hj Hn v'. assert (Hv' : good_view v').
  { destruct Hv as (H1 & H2 & H3 & H4). split; [exact H1|]. split; [now apply zd_set_nodup|]. split.
    - simpl. intros E. assert (X := zd_get_set j j (nd_full cast (sv_mod_shape v) (sv_fill v) (sv_dtype v)) (sv_data v)). rewrite E, Z.eqb_refl in X. discriminate.
    - simpl. intros m a K. apply zd_set_in in K. destruct K as [[-> ->]|K]; [|auto]. auto. }
  split; [assumption|]. intros r Hr. destruct (good_asarray Hv) as (r0 & E0 & R1 & R2 & R3). destruct (good_asarray Hv') as (r' & E' & S1 & S2 & S3).
  assert (r0 = r) by congruence. subst r0. exists r'. split; [assumption|]. split; [now rewrite R2, S2|]. split; [rewrite R1, S1; reflexivity|].
  intros idx Hi. rewrite S1 in Hi. destruct (in_range_insert Hi) as (m & t & -> & Hm & Ht).
  { destruct (good_axis Hv'); assumption. }
  assert (L : (Z.to_nat (sv_axis v) <= List.length t)%nat) by (apply in_range_length in Ht; rewrite Ht; destruct (good_axis Hv); assumption).
  change (sv_axis v') with (sv_axis v) in *. rewrite S3, R3 by exact L. unfold module_at. cbn [v' sv_data sv_dtype sv_fill]. rewrite zd_get_set.
  destruct (Z.eqb_spec (Z.of_nat m) j) as [E|_]; [|reflexivity]. rewrite E, Hn. reflexivity.
Qed.

Lemma view_single : forall v ixs real full z, good_view v -> asarray cast v = Ok real ->
  np_expand (sv_ndim v) ixs = Ok full -> nth_error full (Z.to_nat (sv_axis v)) = Some (IInt z) -> (- sv_n v <= z)%Z ->
  match view_getitem cast v ixs, nd_index real ixs with
  | Ok (VArray a, v'), Ok b => nd_same a b /\ good_view v' /\ exists real', asarray cast v' = Ok real' /\ nd_same real' real
  | Err _, Err _ => True
  | _, _ => False
  end.
Proof.
  intros v ixs real full z Hv Hr He Hi Hz. rewrite (view_getitem_eq Hv He Hi). cbn zeta.
  destruct (good_asarray Hv) as (r0 & E0 & R1 & R2 & R3). assert (r0 = real) by congruence. subst r0.
  destruct (good_axis Hv) as [_ Hax]. destruct (expand_spec He) as (_ & Hl & Hne). set (k := Z.to_nat (sv_axis v)) in *.
  set (i1 := firstn k full) in *. set (i2 := skipn (S k) full) in *. assert (Ef := split_at Hi). fold i1 i2 in Ef.
  assert (L1 : List.length i1 = k) by (unfold i1; apply firstn_length_le; unfold sv_ndim in Hl; lia).
  clearbody i1 i2.
  assert (L2 : List.length (sv_mod_shape v) = List.length (i1 ++ i2)).
  { apply (f_equal (@List.length _)) in Ef. rewrite app_length in *. simpl in Ef. unfold sv_ndim in Hl. lia. }
  assert (Hn12 : Forall (fun i => is_ellipsis i = false) (i1 ++ i2)).
  { rewrite Ef in Hne. apply Forall_app in Hne. destruct Hne as [A B]. inversion B. now apply Forall_app. }
  assert (En : nd_index real ixs = let* ss := resolve (nd_shape real) full in Ok (mk_nd (nd_dtype real) (sel_shape ss) (fun idx => nd_at real (sel_coords ss idx)))).
  { unfold nd_index. replace (nd_ndim real) with (sv_ndim v); [now rewrite He|]. unfold nd_ndim, sv_ndim. now rewrite R1, insert_at_length. }
  rewrite En, R1. set (n := Z.to_nat (sv_n v)) in *.
  assert (R := @resolve_insert (sv_mod_shape v) k n i1 i2 (IInt z) L1 L2). rewrite <- Ef in R. cbn [resolve1] in R.
  set (j := (if (z <? 0)%Z then (z + sv_n v)%Z else z)). assert (Hj : (0 <= j)%Z) by (unfold j; destruct (Z.ltb_spec z 0); lia).
  assert (Hpos : (0 < sv_n v)%Z).
  { destruct Hv as (_ & _ & H3 & H4). destruct (sv_data v) as [|[m a] d]; [contradiction|]. destruct (H4 m a); [now left|lia]. }
  destruct (Z.ltb_spec j (sv_n v)) as [Hlt|Hge].
  - assert (Ej : py_index (seq 0 n) z = Ok (Z.to_nat j)).
    { unfold j, py_index. rewrite seq_length. replace (Z.of_nat n) with (sv_n v) by (unfold n; lia). fold j.
      destruct (Z.leb_spec 0 j); [|lia]. destruct (Z.ltb_spec j (sv_n v)); [|lia]. cbn [andb].
      rewrite nth_error_nth' with (d := 0%nat) by (rewrite seq_length; lia). rewrite seq_nth by lia. reflexivity. }
    rewrite Ej in R. cbn [bind] in R.
    assert (Main : forall a v', nd_shape a = sv_mod_shape v -> nd_dtype a = sv_dtype v ->
              (forall idx, nd_at a idx = module_at cast (sv_data v) (sv_dtype v) (sv_fill v) (Z.to_nat j) idx) ->
              good_view v' -> (exists real', asarray cast v' = Ok real' /\ nd_same real' real) ->
      match (let* r := (let* r := nd_index a (i1 ++ i2) in Ok (r, v')) in Ok (VArray (fst r), snd r)), (let* ss := resolve (insert_at k n (sv_mod_shape v)) full in Ok (mk_nd (nd_dtype real) (sel_shape ss) (fun idx => nd_at real (sel_coords ss idx)))) with
      | Ok (VArray a, v'), Ok b => nd_same a b /\ good_view v' /\ exists real', asarray cast v' = Ok real' /\ nd_same real' real
      | Err _, Err _ => True
      | _, _ => False
      end).
    { intros a v' A1 A2 A3 A4 A5. rewrite nd_index_mod by (unfold nd_ndim; rewrite ?A1; assumption). rewrite A1.
      destruct (resolve (sv_mod_shape v) (i1 ++ i2)) as [ss|e]; cbn [bind].
      - destruct R as (ca & cb & -> & K1 & K2 & K3 & ->). cbn [bind fst snd]. split; [|auto].
        split; [simpl; congruence|]. split; [cbn [nd_shape]; rewrite !sel_shape_app; reflexivity|].
        cbn [nd_shape nd_at]. intros idx Hx. apply in_range_length in Hx. rewrite sel_shape_app, app_length in Hx.
        destruct (split_list Hx) as (x1 & x2 & -> & X1 & X2). rewrite !sel_coords_app by assumption. cbn [sel_coords].
        rewrite A3. rewrite <- (insert_at_app (k := k)) by (rewrite sel_coords_length; assumption). rewrite R3; [reflexivity|].
        rewrite app_length, !sel_coords_length. lia.
      - destruct R as (e' & ->). exact I. }
    unfold get_single_mod. fold j. destruct (zd_get j (sv_data v)) as [a|] eqn:Eg.
    + apply Main.
      * destruct Hv as (_ & _ & _ & H4). apply zd_get_in in Eg. apply H4 in Eg. tauto.
      * destruct Hv as (_ & _ & _ & H4). apply zd_get_in in Eg. apply H4 in Eg. tauto.
      * intros idx. unfold module_at. rewrite Z2Nat.id, Eg by lia. reflexivity.
      * assumption.
      * exists real. split; [assumption|]. split; [reflexivity|]. split; [reflexivity|]. reflexivity.
    + destruct (Z.leb_spec (sv_n v) j); [lia|]. destruct (good_set Hv (conj Hj Hlt) Eg) as [G1 G2]. apply Main; auto.
      intros idx. unfold module_at. rewrite Z2Nat.id, Eg by lia. reflexivity.
  - assert (Ej : exists e, py_index (seq 0 n) z = Err e).
    { unfold py_index. rewrite seq_length. replace (Z.of_nat n) with (sv_n v) by (unfold n; lia). fold j.
      destruct (Z.ltb_spec j (sv_n v)); [lia|]. rewrite andb_false_r. eauto. }
    destruct Ej as (e & Ej). rewrite Ej in R. cbn [bind] in R. destruct R as (e' & ->).
    unfold get_single_mod. fold j. destruct (zd_get j (sv_data v)) as [a|] eqn:Eg.
    + exfalso. destruct Hv as (_ & _ & _ & H4). apply zd_get_in in Eg. apply H4 in Eg. lia.
    + destruct (Z.leb_spec (sv_n v) j); [exact I|lia].
Qed.

Lemma get_all_eq : forall v ixs, good_view v -> Forall (fun i => is_ellipsis i = false) ixs -> List.length ixs = List.length (sv_mod_shape v) ->
  get_all_mods v ixs = match resolve (sv_mod_shape v) ixs with
    | Ok ss => Ok (make_view (map (fun m => (fst m, mk_nd (sv_dtype v) (sel_shape ss) (fun idx => nd_at (snd m) (sel_coords ss idx)))) (sv_data v))
                     (sv_n v) (sel_shape ss) (sv_dtype v) (sv_fill v) (-3))
    | Err e => Err e end.
Proof.
  intros v ixs (H1 & H2 & H3 & H4) Hn Hl. unfold get_all_mods.
  assert (E : mapM (fun m : Z * nd => let* r := nd_index (snd m) ixs in Ok (fst m, r)) (sv_data v) =
    match resolve (sv_mod_shape v) ixs with
    | Ok ss => Ok (map (fun m => (fst m, mk_nd (sv_dtype v) (sel_shape ss) (fun idx => nd_at (snd m) (sel_coords ss idx)))) (sv_data v))
    | Err e => Err e end).
  { assert (X : forall m a, In (m, a) (sv_data v) -> nd_index a ixs = let* ss := resolve (sv_mod_shape v) ixs in Ok (mk_nd (sv_dtype v) (sel_shape ss) (fun idx => nd_at a (sel_coords ss idx)))).
    { intros m a K. destruct (H4 _ _ K) as (_ & K1 & K2). rewrite nd_index_mod by (unfold nd_ndim; rewrite ?K1; auto). now rewrite K1, K2. }
    clear H2 H4. destruct (resolve (sv_mod_shape v) ixs) as [ss|e].
    - clear H3. induction (sv_data v) as [|[m a] d IH]; [reflexivity|]. cbn [mapM map fst snd]. rewrite (X m a) by now left. cbn [bind]. rewrite IH by (intros; apply X with (m := m0); now right). reflexivity.
    - destruct (sv_data v) as [|[m a] d]; [contradiction|]. cbn [mapM fst snd]. rewrite (X m a) by now left. reflexivity. }
  rewrite E. destruct (resolve (sv_mod_shape v) ixs) as [ss|e]; [|reflexivity]. cbn [bind].
  destruct (sv_data v) as [|[m a] d]; [contradiction|]. reflexivity.
Qed.
Lemma zd_get_map : forall (f : nd -> nd) k d, zd_get k (map (fun m => (fst m, f (snd m))) d) = option_map f (zd_get k d).
Proof. intros f k. induction d as [|[k' a] d IH]; [reflexivity|]. simpl. destruct (k =? k')%Z; [reflexivity|exact IH]. Qed.

Lemma view_all : forall v ixs real full, good_view v -> asarray cast v = Ok real ->
  np_expand (sv_ndim v) ixs = Ok full -> nth_error full (Z.to_nat (sv_axis v)) = Some full_slice ->
  kept (skipn (S (Z.to_nat (sv_axis v))) full) = 2%nat ->
  match view_getitem cast v ixs, nd_index real ixs with
  | Ok (VView u, v'), Ok b => v' = v /\ good_view u /\ exists r, asarray cast u = Ok r /\ nd_same r b
  | Err _, Err _ => True
  | _, _ => False
  end.
Proof.
  intros v ixs real full Hv Hr He Hi Hk. rewrite (view_getitem_eq Hv He Hi). cbn zeta.
  destruct (good_asarray Hv) as (r0 & E0 & R1 & R2 & R3). assert (r0 = real) by congruence. subst r0.
  destruct (good_axis Hv) as [_ Hax]. destruct (expand_spec He) as (_ & Hl & Hne). set (k := Z.to_nat (sv_axis v)) in *.
  set (i1 := firstn k full) in *. set (i2 := skipn (S k) full) in *. assert (Ef := split_at Hi). fold i1 i2 in Ef.
  assert (L1 : List.length i1 = k) by (unfold i1; apply firstn_length_le; unfold sv_ndim in Hl; lia).
  clearbody i1 i2.
  assert (L2 : List.length (sv_mod_shape v) = List.length (i1 ++ i2)).
  { apply (f_equal (@List.length _)) in Ef. rewrite app_length in *. simpl in Ef. unfold sv_ndim in Hl. lia. }
  assert (Hn12 : Forall (fun i => is_ellipsis i = false) (i1 ++ i2)).
  { rewrite Ef in Hne. apply Forall_app in Hne. destruct Hne as [A B]. inversion B. now apply Forall_app. }
  assert (En : nd_index real ixs = let* ss := resolve (nd_shape real) full in Ok (mk_nd (nd_dtype real) (sel_shape ss) (fun idx => nd_at real (sel_coords ss idx)))).
  { unfold nd_index. replace (nd_ndim real) with (sv_ndim v); [now rewrite He|]. unfold nd_ndim, sv_ndim. now rewrite R1, insert_at_length. }
  rewrite En, R1. set (n := Z.to_nat (sv_n v)) in *.
  assert (R := @resolve_insert (sv_mod_shape v) k n i1 i2 full_slice L1 L2). rewrite <- Ef in R. rewrite full_slice_seq in R.
  change (is_full_slice full_slice) with true. cbn match. unfold full_slice at 1. rewrite get_all_eq by auto.
  destruct (resolve (sv_mod_shape v) (i1 ++ i2)) as [ss|e].
  2: { destruct R as (e' & ->). exact I. }
  destruct R as (ca & cb & -> & K1 & K2 & K3 & ->). cbn [bind].
  set (u := make_view _ _ _ _ _ _). split; [reflexivity|].
  assert (Au : sv_axis u = Z.of_nat (List.length (sel_shape ca))).
  { unfold u, make_view. cbn [sv_axis]. rewrite sel_shape_app, app_length, K2, Hk. change (-3 <? 0)%Z with true. cbn match. lia. }
  assert (Hu : good_view u).
  { destruct Hv as (H1 & H2 & H3 & H4). split; [|split; [|split]].
    - rewrite Au. unfold u, make_view. cbn [sv_mod_shape]. rewrite sel_shape_app, app_length. lia.
    - unfold u, make_view. cbn [sv_data]. rewrite map_map. cbn [fst]. exact H2.
    - unfold u, make_view. cbn [sv_data]. destruct (sv_data v); [contradiction|discriminate].
    - unfold u, make_view. cbn [sv_data sv_n sv_mod_shape sv_dtype]. intros m a K. apply in_map_iff in K. destruct K as ([m' a'] & E & K). cbn [fst snd] in E. injection E as <- <-.
      destruct (H4 _ _ K) as (K4 & _). auto. }
  split; [assumption|]. destruct (good_asarray Hu) as (r & Er & S1 & S2 & S3). exists r. split; [assumption|].
  rewrite Au, Nat2Z.id in S1, S3. change (sv_mod_shape u) with (sel_shape (ca ++ cb)) in S1. change (sv_n u) with (sv_n v) in S1. fold n in S1.
  rewrite sel_shape_app, insert_at_app in S1 by reflexivity.
  split; [cbn [nd_dtype]; rewrite S2, R2; reflexivity|]. split; [cbn [nd_shape]; rewrite S1, sel_shape_app; cbn [sel_shape]; rewrite seq_length; reflexivity|].
  cbn [nd_at]. intros idx Hx. rewrite S1 in Hx. assert (Hm := Hx). apply in_range_length in Hx. rewrite app_length in Hx. destruct (split_list Hx) as (x1 & x2 & -> & X1 & X2).
  destruct x2 as [|m x2]; [discriminate|]. assert (Hmn : (m < n)%nat).
  { apply Forall2_app_inv_r in Hm. destruct Hm as (y1 & y2 & Y1 & Y2 & Y3). assert (y1 = x1 /\ y2 = m :: x2) as [-> ->].
    { assert (List.length y1 = List.length x1). { clear -X1 Y1. rewrite X1. clear X1. induction Y1; simpl; congruence. }
      clear -Y3 H. revert x1 Y3 H. induction y1; intros [|c x1] E H; simpl in *; try discriminate; [auto|]. injection E as -> E. destruct (IHy1 x1 E) as [-> ->]; [lia|auto]. }
    inversion Y2; subst. assumption. }
  rewrite <- (insert_at_app (k := List.length (sel_shape ca)) m (l1 := x1)) by assumption. rewrite S3 by (rewrite app_length; lia).
  rewrite insert_at_app by assumption. rewrite sel_coords_app by assumption. cbn [sel_coords]. rewrite seq_nth by assumption. cbn [Nat.add].
  rewrite <- (insert_at_app (k := k)) by (rewrite sel_coords_length; assumption). rewrite R3 by (rewrite app_length, !sel_coords_length; lia).
  unfold module_at. change (sv_data u) with (map (fun m0 : Z * nd => (fst m0, (fun a => mk_nd (sv_dtype v) (sel_shape (ca ++ cb)) (fun idx => nd_at a (sel_coords (ca ++ cb) idx))) (snd m0))) (sv_data v)).
  rewrite (zd_get_map (fun a => mk_nd (sv_dtype v) (sel_shape (ca ++ cb)) (fun idx => nd_at a (sel_coords (ca ++ cb) idx)))).
  destruct (zd_get (Z.of_nat m) (sv_data v)) as [a|]; cbn [option_map nd_at]; [|reflexivity].
  rewrite sel_coords_app by assumption. reflexivity.
Qed.
End V.
