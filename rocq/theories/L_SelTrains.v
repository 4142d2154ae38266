(** Selecting trains. *)
From Verif Require Import Base PyStr M_Files M_Machinery M_Reader M_Glob M_Select S_Reader S_Coll S_Select
  L_Base L_Machinery L_Reader L_GetArray L_Select.
Set Implicit Arguments.
Unset Strict Implicit.
Local Open Scope string_scope.
Local Open Scope list_scope.
Local Open Scope Z_scope.

(** ** Ranges and slices *)
Lemma range_len_pos : forall a b k, 0 < k -> 
  forall m, 0 <= m -> (m < range_len a b k <-> a + m * k < b).
Proof.
  intros a b k Hk m Hm. unfold range_len. apply Z.ltb_lt in Hk as Hk'. rewrite Hk'.
  destruct (a <? b) eqn:E.
  - apply Z.ltb_lt in E. split.
    + intros H. assert (m + 1 <= (b - a + k - 1) / k) by lia.
      assert ((m + 1) * k <= b - a + k - 1).
      { etransitivity; [apply Z.mul_le_mono_nonneg_r; [lia|eassumption]|]. rewrite Z.mul_comm. apply Z.mul_div_le. lia. }
      nia.
    + intros H. assert (m + 1 <= (b - a + k - 1) / k); [|lia]. apply Z.div_le_lower_bound; [lia|]. nia.
  - apply Z.ltb_ge in E. split; [lia|]. intros H. nia.
Qed.
Lemma range_len_neg : forall a b k, k < 0 ->
  forall m, 0 <= m -> (m < range_len a b k <-> b < a + m * k).
Proof.
  intros a b k Hk m Hm. unfold range_len. assert (Hk' : (0 <? k) = false) by (apply Z.ltb_ge; lia). rewrite Hk'.
  destruct (b <? a) eqn:E.
  - apply Z.ltb_lt in E. split.
    + intros H. assert (m + 1 <= (a - b - k - 1) / (- k)) by lia.
      assert ((m + 1) * (- k) <= a - b - k - 1).
      { etransitivity; [apply Z.mul_le_mono_nonneg_r; [lia|eassumption]|]. rewrite Z.mul_comm. apply Z.mul_div_le. lia. }
      nia.
    + intros H. assert (m + 1 <= (a - b - k - 1) / (- k)); [|lia]. apply Z.div_le_lower_bound; [lia|]. nia.
  - apply Z.ltb_ge in E. split; [lia|]. intros H. nia.
Qed.

Lemma py_range_In : forall a b k x, k <> 0 ->
  In x (py_range a b k) <->
  (if 0 <? k then x < b else b < x) /\ exists m, 0 <= m /\ x = a + m * k.
Proof.
  intros a b k x Hk. unfold py_range. rewrite in_map_iff. split.
  - intros (i & <- & Hi). apply in_seq in Hi.
    assert (Hlt : Z.of_nat i < range_len a b k) by lia.
    split; [|exists (Z.of_nat i); split; [lia|reflexivity]].
    destruct (0 <? k) eqn:E; [apply Z.ltb_lt in E; apply range_len_pos; lia|apply Z.ltb_ge in E; apply range_len_neg; lia].
  - intros (Hx & m & Hm & ->). exists (Z.to_nat m). rewrite Z2Nat.id by lia. split; [reflexivity|].
    apply in_seq. assert (m < range_len a b k); [|lia].
    destruct (0 <? k) eqn:E; [apply Z.ltb_lt in E; apply range_len_pos; lia|apply Z.ltb_ge in E; apply range_len_neg; lia].
Qed.

Lemma map_seq_sorted : forall (f : nat -> Z) (R : Z -> Z -> Prop),
  (forall i j, (i < j)%nat -> R (f i) (f j)) -> forall n s, StronglySorted R (map f (seq s n)).
Proof.
  intros f R H; induction n as [|n IH]; intros s; simpl; constructor; [apply IH|].
  apply Forall_forall. intros x Hx. apply in_map_iff in Hx as (j & <- & Hj). apply in_seq in Hj. apply H. lia.
Qed.

Lemma py_range_sorted : forall a b k, k <> 0 ->
  StronglySorted (fun x y => if 0 <? k then x < y else y < x) (py_range a b k).
Proof.
  intros a b k Hk. unfold py_range. apply map_seq_sorted. intros i j Hij.
  destruct (0 <? k) eqn:E; [apply Z.ltb_lt in E|apply Z.ltb_ge in E]; nia.
Qed.

Lemma pick_all : forall A (l : list A) ps,
  (forall p, In p ps -> 0 <= p < Z.of_nat (List.length l)) ->
  Forall2 (fun p a => nth_error l (Z.to_nat p) = Some a) ps (pick l ps).
Proof.
  intros A l; induction ps as [|p ps IH]; intros H; simpl; [constructor|].
  destruct (@nth_error_ex A l (Z.to_nat p)) as [a Ha]; [specialize (H p (or_introl eq_refl)); lia|].
  rewrite Ha. constructor; [assumption|]. apply IH. intros; apply H; now right.
Qed.

Theorem py_slice_spec : forall A (l : list A) s,
  (the_step s = 0 -> py_slice l s = Err EValueError) /\
  (the_step s <> 0 -> exists r, py_slice l s = Ok r /\ is_slice l s r).
Proof.
  intros A l s. unfold py_slice, slice_indices. fold (the_step s). split.
  - intros ->. reflexivity.
  - intros Hk. assert (Hk0 : (the_step s =? 0) = false) by now apply Z.eqb_neq. rewrite Hk0. simpl.
    set (n := Z.of_nat (List.length l)).
    set (neg := (the_step s <? 0)).
    set (a := match sl_start s with None => _ | Some v => _ end).
    set (b := match sl_stop s with None => _ | Some v => _ end).
    assert (Hmem : forall x, In x (py_range a b (the_step s)) <-> in_slice n s x).
    { intros x. rewrite py_range_In by assumption. unfold in_slice, before_stop, slice_from, from_end, a, b, neg, slice_clip.
      pose proof (Nat2Z.is_nonneg (List.length l)) as Hn. fold n in Hn. unfold neg.
      destruct (0 <? the_step s) eqn:E.
      - apply Z.ltb_lt in E. assert (E2 : (the_step s <? 0) = false) by (apply Z.ltb_ge; lia). rewrite E2.
        split.
        + intros (Hx & m & Hm & ->).
          assert (0 <= m * the_step s) by nia. 
          destruct (sl_start s) as [v|], (sl_stop s) as [w|];
            revert Hx; repeat match goal with |- context [?v <? 0] => destruct (Z.ltb_spec v 0) end; intros Hx;
            (split; [lia|]); (split; [lia|]); exists m; lia.
        + intros (Hx & Hb & m & Hm & Hxm). split.
          * destruct (sl_stop s) as [w|]; [|lia]. destruct (w <? 0) eqn:?; lia.
          * destruct (sl_start s) as [v|].
            -- destruct (v <? 0) eqn:Ev.
               ++ exists m. split; [assumption|]. rewrite Hxm. f_equal. lia.
               ++ apply Z.ltb_ge in Ev. exists m. split; [assumption|]. rewrite Hxm.
                  assert (0 <= m * the_step s) by nia. f_equal. lia.
            -- exists m. split; assumption.
      - apply Z.ltb_ge in E. assert (E2 : (the_step s <? 0) = true) by (apply Z.ltb_lt; lia). rewrite E2.
        split.
        + intros (Hx & m & Hm & ->).
          assert (m * the_step s <= 0) by nia. 
          destruct (sl_start s) as [v|], (sl_stop s) as [w|];
            revert Hx; repeat match goal with |- context [?v <? 0] => destruct (Z.ltb_spec v 0) end; intros Hx;
            (split; [lia|]); (split; [lia|]); exists m; lia.
        + intros (Hx & Hb & m & Hm & Hxm). assert (m * the_step s <= 0) by nia. split.
          * destruct (sl_stop s) as [w|]; [|lia]. destruct (w <? 0) eqn:?; lia.
          * destruct (sl_start s) as [v|].
            -- destruct (v <? 0) eqn:Ev; exists m; (split; [assumption|]); rewrite Hxm; f_equal; lia.
            -- exists m. split; assumption. }
    exists (pick l (py_range a b (the_step s))). split; [reflexivity|].
    exists (py_range a b (the_step s)). split; [exact Hmem|]. split; [now apply py_range_sorted|].
    apply pick_all. intros p Hp. apply Hmem in Hp as (Hp & _). exact Hp.
Qed.

(** The slice is determined. *)
Lemma SS_ext : forall (R : Z -> Z -> Prop), (forall x, ~ R x x) -> (forall x y z, R x y -> R y z -> R x z) ->
  forall l1 l2, StronglySorted R l1 -> StronglySorted R l2 -> (forall x, In x l1 <-> In x l2) -> l1 = l2.
Proof.
  intros R Hir Htr. induction l1 as [|a l1 IH]; intros [|b l2] S1 S2 H.
  - reflexivity.
  - exfalso. apply (H b). now left.
  - exfalso. apply (H a). now left.
  - inversion S1 as [|? ? S1' F1]; inversion S2 as [|? ? S2' F2]; subst. rewrite Forall_forall in F1, F2.
    assert (a = b) as ->.
    { destruct (proj1 (H a) (or_introl eq_refl)) as [->|Ha]; [reflexivity|].
      destruct (proj2 (H b) (or_introl eq_refl)) as [->|Hb]; [reflexivity|].
      exfalso. apply (Hir a). eapply Htr; [apply F1; exact Hb|apply F2; exact Ha]. }
    f_equal. apply IH; try assumption. intros x. split; intros Hx.
    + destruct (proj1 (H x) (or_intror Hx)) as [->|]; [|assumption]. exfalso. exact (Hir x (F1 x Hx)).
    + destruct (proj2 (H x) (or_intror Hx)) as [->|]; [|assumption]. exfalso. exact (Hir x (F2 x Hx)).
Qed.
Lemma Forall2_nth_fun : forall A (l : list A) ps r1 r2,
  Forall2 (fun p a => nth_error l (Z.to_nat p) = Some a) ps r1 ->
  Forall2 (fun p a => nth_error l (Z.to_nat p) = Some a) ps r2 -> r1 = r2.
Proof.
  intros A l ps r1 r2 H1. revert r2. induction H1; intros r2 H2; inversion H2; subst; [reflexivity|].
  f_equal; [congruence|auto].
Qed.
Theorem is_slice_unique : forall A (l : list A) s r1 r2, is_slice l s r1 -> is_slice l s r2 -> r1 = r2.
Proof.
  intros A l s r1 r2 (p1 & M1 & S1 & F1) (p2 & M2 & S2 & F2).
  assert (p1 = p2) as ->.
  { eapply SS_ext with (R := fun x y => if 0 <? the_step s then x < y else y < x); try eassumption.
    - intros x. destruct (0 <? the_step s); lia.
    - intros x y z. destruct (0 <? the_step s); lia.
    - intros x. now rewrite M1, M2. }
  eapply Forall2_nth_fun; eassumption.
Qed.

(** ** by_id slices *)

Lemma list_index_from_some : forall l i x p, list_index_from i x l = Some p ->
  (i <= p)%nat /\ nth_error l (p - i) = Some x.
Proof.
  induction l as [|y l IH]; intros i x p H; simpl in H; [discriminate|].
  destruct (x =? y) eqn:E.
  - injection H as <-. apply Z.eqb_eq in E. subst. rewrite Nat.sub_diag. split; [lia|reflexivity].
  - apply IH in H as [H1 H2]. split; [lia|]. replace (p - i)%nat with (S (p - S i)) by lia. exact H2.
Qed.
Lemma list_index_from_none : forall l i x, list_index_from i x l = None <-> ~ In x l.
Proof.
  induction l as [|y l IH]; intros i x; simpl; [split; auto|].
  destruct (x =? y) eqn:E.
  - apply Z.eqb_eq in E. split; [discriminate|]. intros H. exfalso. apply H. now left.
  - apply Z.eqb_neq in E. rewrite IH. split; intros H; [intros [->|]; tauto|tauto].
Qed.

Lemma sorted_nth_lt : forall l i j x y, StronglySorted Z.lt l ->
  nth_error l i = Some x -> nth_error l j = Some y -> (i < j)%nat -> x < y.
Proof.
  induction l as [|a l IH]; intros i j x y S Hi Hj Hij; [destruct i; discriminate|].
  inversion S as [|? ? S' F]; subst. destruct j as [|j]; [lia|]. destruct i as [|i]; simpl in *.
  - injection Hi as <-. rewrite Forall_forall in F. apply F. eapply nth_error_In; eassumption.
  - eapply IH with (i := i) (j := j); try eassumption. lia.
Qed.

Lemma filter_all : forall A (p : A -> bool) l, (forall x, In x l -> p x = true) -> filter p l = l.
Proof.
  intros A p; induction l as [|x l IH]; intros H; simpl; [reflexivity|].
  rewrite H by now left. f_equal. apply IH. intros; apply H; now right.
Qed.
Lemma filter_none : forall A (p : A -> bool) l, (forall x, In x l -> p x = false) -> filter p l = [].
Proof.
  intros A p; induction l as [|x l IH]; intros H; simpl; [reflexivity|].
  rewrite H by now left. apply IH. intros; apply H; now right.
Qed.

Lemma SS_filter : forall p l, StronglySorted Z.lt l -> StronglySorted Z.lt (filter p l).
Proof.
  intros p l H. induction H as [|x l H IH Hx]; simpl; [constructor|].
  destruct (p x); [constructor|]; [assumption| |assumption].
  rewrite Forall_forall in *. intros y Hy. apply filter_In in Hy as [Hy _]. auto.
Qed.

(** Positions bounding a range of values in a sorted list. *)
Definition at_bound (l : list Z) (t : Z) (p : nat) : Prop :=
  (forall i x, nth_error l i = Some x -> ((i < p)%nat <-> x < t)).

Lemma slice_filter : forall l a b (pa pb : option nat),
  StronglySorted Z.lt l ->
  match a with None => pa = None | Some t => match pa with None => forall x, In x l -> t <= x | Some p => at_bound l t p /\ (p <= List.length l)%nat end end ->
  match b with None => pb = None | Some t => match pb with None => forall x, In x l -> x < t | Some p => at_bound l t p /\ (p <= List.length l)%nat end end ->
  py_slice l (mk_slice (option_map Z.of_nat pa) (option_map Z.of_nat pb) None) = Ok (filter (in_range a b) l).
Proof.
  intros l a b pa pb HS Ha Hb.
  destruct (proj2 (py_slice_spec l (mk_slice (option_map Z.of_nat pa) (option_map Z.of_nat pb) None)))
    as (r & -> & ps & Hm & Hs & HF); [discriminate|]. f_equal.
  assert (Hin : forall x, In x r <-> In x (filter (in_range a b) l)).
  { intros x. rewrite filter_In. split.
    - intros Hx. assert (exists p, In p ps /\ nth_error l (Z.to_nat p) = Some x) as (p & Hp & Hpx).
      { clear -HF Hx. induction HF; [destruct Hx|]. destruct Hx as [<-|Hx]; [eauto using in_eq|].
        destruct (IHHF Hx) as (p & Hp & E). eauto using in_cons. }
      apply Hm in Hp as (Hp1 & Hp2 & m & Hm0 & Hp3). unfold before_stop, slice_from, from_end in *.
      change (the_step _) with 1 in *. simpl in Hp2, Hp3.
      assert (Hix : In x l) by (eapply nth_error_In; eassumption). split; [assumption|].
      unfold in_range. apply andb_true_iff. split.
      + destruct a as [ta|]; [|reflexivity]. apply Z.leb_le. destruct pa as [pa|]; [|auto]. destruct Ha as [Ha _].
        specialize (Ha (Z.to_nat p) x Hpx). simpl in Hp3. change (0 <? 1) with true in Hp3. cbv iota in Hp3.
        destruct (Z_lt_dec x ta) as [Hlt|]; [|lia]. exfalso. apply Ha in Hlt.
        replace (Z.of_nat pa <? 0) with false in Hp3 by (symmetry; apply Z.ltb_ge; lia). lia.
      + destruct b as [tb|]; [|reflexivity]. apply Z.ltb_lt. destruct pb as [pb|]; [|auto]. destruct Hb as [Hb _].
        apply (Hb (Z.to_nat p) x Hpx). simpl in Hp2.
        replace (Z.of_nat pb <? 0) with false in Hp2 by (symmetry; apply Z.ltb_ge; lia). lia.
    - intros [Hx Hr]. apply In_nth_error in Hx as [i Hi].
      assert (Hp : In (Z.of_nat i) ps).
      { apply Hm. unfold in_slice, before_stop, slice_from, from_end. change (the_step _) with 1. simpl.
        pose proof (@nth_error_Some_lt _ _ _ _ Hi) as Hlen.
        unfold in_range in Hr. apply andb_true_iff in Hr as [Hra Hrb].
        split; [lia|]. split.
        - destruct b as [tb|]; [|subst pb; exact I]. destruct pb as [pb|]; [|exact I]. simpl.
          replace (Z.of_nat pb <? 0) with false by (symmetry; apply Z.ltb_ge; lia).
          apply Z.ltb_lt in Hrb. destruct Hb as [Hb _]. apply (Hb i x Hi) in Hrb. lia.
        - assert (exists j : Z, Z.of_nat i = match option_map Z.of_nat pa with Some v => Z.max 0 (if v <? 0 then v + Z.of_nat (List.length l) else v) | None => 0 end + j * 1 /\ 0 <= j) as (j & Hj & Hj0).
          { destruct pa as [pa|]; simpl.
            - replace (Z.of_nat pa <? 0) with false by (symmetry; apply Z.ltb_ge; lia).
              exists (Z.of_nat i - Z.of_nat pa). split; [lia|].
              destruct a as [ta|]; [|discriminate]. destruct Ha as [Ha _]. apply Z.leb_le in Hra.
              destruct (Nat.lt_ge_cases i pa) as [Hlt|]; [|lia]. apply (Ha i x Hi) in Hlt. lia.
            - exists (Z.of_nat i). lia. }
          exists j. split; assumption. }
      clear -HF Hp Hi. induction HF; [destruct Hp|]. destruct Hp as [->|Hp]; [|right; auto].
      rewrite Nat2Z.id in H. left. congruence. }
  assert (Hsr : StronglySorted Z.lt r).
  { assert (Hs' : StronglySorted Z.lt ps) by exact Hs.
    assert (Hpos : forall p, In p ps -> 0 <= p) by (intros p Hp; apply Hm in Hp as (Hp & _); lia).
    clear -HF Hs' HS Hpos. induction HF as [|p x ps r Hp HF IH]; [constructor|].
    inversion Hs' as [|? ? S' F]; subst. constructor; [apply IH; [assumption|]; intros; apply Hpos; now right|].
    apply Forall_forall. intros y Hy.
    assert (exists q, In q ps /\ nth_error l (Z.to_nat q) = Some y) as (q & Hq & Hqy).
    { clear -HF Hy. induction HF; [destruct Hy|]. destruct Hy as [<-|Hy]; [eauto using in_eq|].
      destruct (IHHF Hy) as (q & Hq & E). eauto using in_cons. }
    rewrite Forall_forall in F. specialize (F q Hq).
    pose proof (Hpos p (or_introl eq_refl)). pose proof (Hpos q (or_intror Hq)).
    eapply (@sorted_nth_lt l (Z.to_nat p) (Z.to_nat q)); try eassumption. lia. }
  apply sorted_lt_ext; [assumption|now apply SS_filter|assumption].
Qed.

(** Is the position of a bound in the train list found without error? *)

Lemma last_max : forall l x d, StronglySorted Z.lt l -> In x l -> x <= last l d.
Proof.
  induction l as [|a l IH]; intros x d S H; [destruct H|]. inversion S as [|? ? S' F]; subst.
  destruct l as [|b l]; [destruct H as [->|[]]; simpl; lia|]. change (last (a :: b :: l) d) with (last (b :: l) d).
  destruct H as [->|H]; [|auto]. rewrite Forall_forall in F. specialize (F b (or_introl eq_refl)).
  specialize (IH b d S' (or_introl eq_refl)). lia.
Qed.
Lemma last_In : forall (l : list Z) d, l <> [] -> In (last l d) l.
Proof.
  induction l as [|a l IH]; intros d H; [congruence|]. destruct l as [|b l]; [now left|].
  right. apply IH. discriminate.
Qed.

Lemma tid_ix_spec : forall l ut stop, StronglySorted Z.lt l -> l <> [] ->
  let t := tid_val ut in
  (forall p, list_index t l = Some p -> tid_to_slice_ix (Some ut) l stop = Ok (Some (Z.of_nat p)) /\ at_bound l t p /\ (p <= List.length l)%nat) /\
  (~ In t l -> (forall x, In x l -> t < x) -> tid_to_slice_ix (Some ut) l stop = if stop then Err EValueError else Ok None) /\
  (~ In t l -> (forall x, In x l -> x < t) -> tid_to_slice_ix (Some ut) l stop = if stop then Ok None else Err EValueError) /\
  (inside_gap l t -> match ut with
                     | PyInt _ => tid_to_slice_ix (Some ut) l stop = Err ETypeError
                     | NpInt _ => exists p, tid_to_slice_ix (Some ut) l stop = Ok (Some (Z.of_nat p)) /\ at_bound l t p /\ (p <= List.length l)%nat
                     end).
Proof.
  intros l ut stop HS Hne t. unfold tid_to_slice_ix. fold t.
  assert (Hno : ~ In t l -> list_index t l = None) by (intros; now apply list_index_from_none).
  destruct l as [|t0 l]; [congruence|]. set (L := t0 :: l) in *.
  assert (Hfirst : forall x, In x L -> t0 <= x).
  { intros x Hx. inversion HS as [|? ? _ F]; subst. destruct Hx as [->|Hx]; [lia|].
    rewrite Forall_forall in F. specialize (F x Hx). lia. }
  assert (H0 : In t0 L) by (now left).
  split; [|split; [|split]].
  - intros p Hp. rewrite Hp. split; [reflexivity|]. apply list_index_from_some in Hp as [_ Hp].
    rewrite Nat.sub_0_r in Hp. split.
    + intros i x Hi. destruct (Nat.lt_trichotomy i p) as [Hlt|[->|Hlt]].
      * split; [|auto]. intros _. eapply sorted_nth_lt; eassumption.
      * rewrite Hp in Hi. injection Hi as <-. split; lia.
      * split; [lia|]. intros Hx. pose proof (sorted_nth_lt HS Hp Hi Hlt). lia.
    + apply nth_error_Some_lt in Hp. lia.
  - intros Hn Hlt. rewrite Hno by assumption. unfold L; cbv iota beta; fold L. 
    replace (t <? t0) with true by (symmetry; apply Z.ltb_lt; auto). reflexivity.
  - intros Hn Hlt. rewrite Hno by assumption. unfold L; cbv iota beta; fold L.
    replace (t <? t0) with false by (symmetry; apply Z.ltb_ge; specialize (Hlt t0 H0); lia).
    replace (last L 0 <? t) with true; [reflexivity|]. symmetry. apply Z.ltb_lt. apply Hlt. apply last_In. discriminate.
  - intros (Hn & (x & Hx & Hxt) & (y & Hy & Hyt)). rewrite Hno by assumption. unfold L; cbv iota beta; fold L.
    specialize (Hfirst x Hx).
    replace (t <? t0) with false by (symmetry; apply Z.ltb_ge; lia).
    replace (last L 0 <? t) with false by (symmetry; apply Z.ltb_ge; pose proof (@last_max L y 0 HS Hy); lia).
    assert (Hnp : exists p, match nonzero (map (fun x => t <? x) L) with i :: _ => Ok (Some (Z.of_nat i)) | [] => Err EIndexError end
                            = Ok (Some (Z.of_nat p)) /\ at_bound L t p /\ (p <= List.length L)%nat).
    { destruct (nonzero (map (fun x => t <? x) L)) as [|p r] eqn:E.
      - exfalso. apply In_nth_error in Hy as [q Hq].
        assert (X : In q (nonzero (map (fun x => t <? x) L))).
        { apply nonzero_spec. rewrite nth_error_map, Hq. simpl. f_equal. now apply Z.ltb_lt. }
        rewrite E in X. destruct X.
      - exists p. split; [reflexivity|].
        assert (X : In p (nonzero (map (fun x => t <? x) L))) by (rewrite E; now left).
        apply nonzero_spec in X. rewrite nth_error_map in X. destruct (nth_error L p) as [z|] eqn:Ez; [|discriminate].
        simpl in X. injection X as X. apply Z.ltb_lt in X.
        split; [|apply nth_error_Some_lt in Ez; lia].
        intros i w Hi. split.
        + intros Hlt. pose proof (@nonzero_from_hd _ _ _ _ E i (Nat.le_0_l i) Hlt) as Y. rewrite Nat.sub_0_r, nth_error_map, Hi in Y.
          simpl in Y. injection Y as Y. apply Z.ltb_ge in Y.
          assert (w <> t); [|lia]. intros ->. apply Hn. eapply nth_error_In; eassumption.
        + intros Hw. destruct (Nat.lt_ge_cases i p) as [|Hge]; [assumption|]. exfalso.
          destruct (Nat.eq_dec i p) as [->|]; [rewrite Ez in Hi; injection Hi as <-; lia|].
          pose proof (@sorted_nth_lt L p i z w HS Ez Hi ltac:(lia)). lia. }
    destruct ut; [reflexivity|exact Hnp].
Qed.

(** A bound which the code can use: absent, a numpy integer, or not in a gap. *)

Lemma tid_ix_cases : forall l b stop, StronglySorted Z.lt l -> l <> [] -> usable_bound l b ->
  (tid_to_slice_ix b l stop = Err EValueError /\ exists t, option_map tid_val b = Some t /\
     if stop then forall x, In x l -> t < x else forall x, In x l -> x < t) \/
  ((forall t, option_map tid_val b = Some t ->
     ~ (if stop then forall x, In x l -> t < x else forall x, In x l -> x < t)) /\
   exists p, tid_to_slice_ix b l stop = Ok (option_map Z.of_nat p) /\
   match option_map tid_val b with
   | None => p = None
   | Some t => match p with
               | None => if stop then forall x, In x l -> x < t else forall x, In x l -> t <= x
               | Some p => at_bound l t p /\ (p <= List.length l)%nat
               end
   end).
Proof.
  intros l b stop HS Hne Hu. destruct b as [ut|]; [|right; split; [discriminate|]; exists None; split; reflexivity].
  destruct (@tid_ix_spec l ut stop HS Hne) as (H1 & H2 & H3 & H4). cbn [option_map]. set (t := tid_val ut) in *.
  destruct (list_index t l) as [p|] eqn:E.
  - right. destruct (H1 p eq_refl) as (R & HA & HL). split.
    + intros t' Ht'. injection Ht' as <-. apply list_index_from_some in E as [_ E]. apply nth_error_In in E.
      destruct stop; intros X; specialize (X t E); lia.
    + exists (Some p). split; [exact R|split; assumption].
  - assert (Hn : ~ In t l) by now apply list_index_from_none in E.
    destruct (List.existsb (fun x => x <? t) l) eqn:E1; destruct (List.existsb (fun x => t <? x) l) eqn:E2.
    + apply existsb_exists in E1 as (x & Hx & Hxt). apply Z.ltb_lt in Hxt.
      apply existsb_exists in E2 as (y & Hy & Hyt). apply Z.ltb_lt in Hyt.
      assert (Hg : inside_gap l t) by (split; [assumption|split; eauto]).
      specialize (H4 Hg). destruct ut as [z|z]; [exfalso; exact (Hu Hg)|].
      right. destruct H4 as (p & R & HA). split.
      * intros t' Ht'. injection Ht' as <-. destruct stop; intros X; [specialize (X x Hx)|specialize (X y Hy)]; lia.
      * exists (Some p). split; assumption.
    + assert (Hlt : forall x, In x l -> x < t).
      { intros x Hx. assert (Hxn : x <> t) by congruence.
        destruct (Z_lt_dec x t); [assumption|]. exfalso.
        assert (X : existsb (fun x => t <? x) l = true); [|congruence]. apply existsb_exists. exists x. split; [assumption|]. apply Z.ltb_lt. lia. }
      specialize (H3 Hn Hlt). destruct stop.
      * right. split; [|exists None; split; [exact H3|exact Hlt]].
        intros t' Ht'. injection Ht' as <-. intros X. destruct l as [|x l]; [congruence|].
        specialize (X x (or_introl eq_refl)). specialize (Hlt x (or_introl eq_refl)). lia.
      * left. split; [exact H3|]. exists t. split; [reflexivity|exact Hlt].
    + assert (Hlt : forall x, In x l -> t < x).
      { intros x Hx. assert (Hxn : x <> t) by congruence.
        destruct (Z_lt_dec t x); [assumption|]. exfalso.
        assert (X : existsb (fun x => x <? t) l = true); [|congruence]. apply existsb_exists. exists x. split; [assumption|]. apply Z.ltb_lt. lia. }
      specialize (H2 Hn Hlt). destruct stop.
      * left. split; [exact H2|]. exists t. split; [reflexivity|exact Hlt].
      * right. split; [|exists None; split; [exact H2|intros x Hx; specialize (Hlt x Hx); lia]].
        intros t' Ht'. injection Ht' as <-. intros X. destruct l as [|x l]; [congruence|].
        specialize (X x (or_introl eq_refl)). specialize (Hlt x (or_introl eq_refl)). lia.
    + exfalso. destruct l as [|x l]; [congruence|]. simpl in E1, E2.
      apply orb_false_iff in E1 as [E1 _]. apply orb_false_iff in E2 as [E2 _]. apply Z.ltb_ge in E1, E2.
      apply Hn. left. lia.
Qed.

Theorem by_id_slice : forall l a b, StronglySorted Z.lt l -> l <> [] ->
  usable_bound l a -> usable_bound l b ->
  let ta := option_map tid_val a in let tb := option_map tid_val b in
  (((exists t, ta = Some t /\ forall x, In x l -> x < t) \/ (exists t, tb = Some t /\ forall x, In x l -> t < x)) ->
     new_train_ids l (ById a b None) = Err EValueError) /\
  (~ ((exists t, ta = Some t /\ forall x, In x l -> x < t) \/ (exists t, tb = Some t /\ forall x, In x l -> t < x)) ->
     new_train_ids l (ById a b None) = Ok (filter (in_range ta tb) l)).
Proof.
  intros l a b HS Hne Hua Hub ta tb. simpl.
  destruct (tid_ix_cases false HS Hne Hua) as [(Ra & t & Et & Hlt)|(Hna & pa & Ra & Ba)].
  - rewrite Ra. simpl. split; [reflexivity|]. intros X. exfalso. apply X. left. exists t. split; assumption.
  - rewrite Ra. simpl. destruct (tid_ix_cases true HS Hne Hub) as [(Rb & t & Et & Hlt)|(Hnb & pb & Rb & Bb)].
    + rewrite Rb. simpl. split; [reflexivity|]. intros X. exfalso. apply X. right. exists t. split; assumption.
    + rewrite Rb. simpl. split.
      * intros [(t & Et & Hlt)|(t & Et & Hlt)]; exfalso; [exact (Hna t Et Hlt)|exact (Hnb t Et Hlt)].
      * intros _. apply slice_filter; [assumption|exact Ba|exact Bb].
Qed.

Theorem by_id_gap_error : forall l t b, StronglySorted Z.lt l -> inside_gap l t ->
  new_train_ids l (ById (Some (PyInt t)) b None) = Err ETypeError.
Proof.
  intros l t b HS Hg. assert (Hne : l <> []) by (destruct Hg as (_ & (x & Hx & _) & _); intros ->; destruct Hx).
  destruct (@tid_ix_spec l (PyInt t) false HS Hne) as (_ & _ & _ & H4). unfold new_train_ids. rewrite (H4 Hg). reflexivity.
Qed.

Theorem by_id_gap_error_stop : forall l t a, StronglySorted Z.lt l -> inside_gap l t ->
  (a = None \/ exists ut, a = Some ut /\ In (tid_val ut) l) ->
  new_train_ids l (ById a (Some (PyInt t)) None) = Err ETypeError.
Proof.
  intros l t a HS Hg Ha. assert (Hne : l <> []) by (destruct Hg as (_ & (x & Hx & _) & _); intros ->; destruct Hx).
  destruct (@tid_ix_spec l (PyInt t) true HS Hne) as (_ & _ & _ & H4). unfold new_train_ids. rewrite (H4 Hg).
  destruct Ha as [->|(ut & -> & Hin)]; [reflexivity|].
  destruct (list_index (tid_val ut) l) as [p|] eqn:E; [|exfalso; now apply list_index_from_none in E].
  destruct (@tid_ix_spec l ut false HS Hne) as (H1 & _). destruct (H1 p E) as (-> & _). reflexivity.
Qed.

(** ** by_id and by_index lists *)
Theorem by_id_list : forall l ids,
  ((forall t, In t l -> ~ In t ids) -> new_train_ids l (ByIdList ids) = Err EValueError) /\
  ((exists t, In t l /\ In t ids) -> exists r, new_train_ids l (ByIdList ids) = Ok r /\
     StronglySorted Z.lt r /\ forall t, In t r <-> In t l /\ In t ids).
Proof.
  intros l ids. simpl.
  assert (Hm : forall t, In t (zsort_set (filter (fun t => z_in t ids) l)) <-> In t l /\ In t ids).
  { intros t. rewrite zsort_set_In, filter_In, z_in_iff. reflexivity. }
  destruct (zsort_set _) as [|t r] eqn:E.
  - split; [reflexivity|]. intros (t & H1 & H2). exfalso. apply (Hm t). auto.
  - split.
    + intros H. exfalso. destruct (proj1 (Hm t) (or_introl eq_refl)) as [H1 H2]. exact (H t H1 H2).
    + intros _. eexists; split; [reflexivity|]. split; [rewrite <- E; apply zsort_set_sorted|exact Hm].
Qed.

Lemma py_index_spec : forall A (l : list A) i, let n := Z.of_nat (List.length l) in
  (forall x, py_index l i = Ok x <-> (- n <= i < n /\ nth_error l (Z.to_nat (if i <? 0 then i + n else i)) = Some x)) /\
  (~ (- n <= i < n) -> py_index l i = Err EIndexError).
Proof.
  intros A l i n. unfold py_index. fold n. split.
  - intros x. destruct (i <? 0) eqn:E; [apply Z.ltb_lt in E|apply Z.ltb_ge in E].
    + destruct (0 <=? i + n) eqn:E1; [apply Z.leb_le in E1|apply Z.leb_gt in E1].
      * replace (i + n <? n) with true by (symmetry; apply Z.ltb_lt; lia). simpl.
        destruct (nth_error l (Z.to_nat (i + n))); split; [intros H; injection H as ->|intros [_ H]; now injection H as ->|discriminate|intros [_ H]; discriminate].
        split; [lia|reflexivity].
      * simpl. split; [discriminate|lia].
    + replace (0 <=? i) with true by (symmetry; apply Z.leb_le; lia). simpl.
      destruct (i <? n) eqn:E1; [apply Z.ltb_lt in E1|apply Z.ltb_ge in E1].
      * destruct (nth_error l (Z.to_nat i)); split; [intros H; injection H as ->|intros [_ H]; now injection H as ->|discriminate|intros [_ H]; discriminate].
        split; [lia|reflexivity].
      * split; [discriminate|lia].
  - intros H. destruct (i <? 0) eqn:E; [apply Z.ltb_lt in E|apply Z.ltb_ge in E].
    + replace (0 <=? i + n) with false by (symmetry; apply Z.leb_gt; lia). reflexivity.
    + replace (i <? n) with false by (symmetry; apply Z.ltb_ge; lia). now rewrite andb_false_r.
Qed.

Lemma mapM_err : forall A B (f : A -> res B) e l,
  (forall x, In x l -> (exists y, f x = Ok y) \/ f x = Err e) ->
  (exists x, In x l /\ f x = Err e) -> mapM f l = Err e.
Proof.
  intros A B f e; induction l as [|x l IH]; intros H (y & Hy & Hf); [destruct Hy|]. simpl.
  destruct (H x (or_introl eq_refl)) as [[z Hz]|Hx].
  - rewrite Hz. simpl. rewrite IH; [reflexivity|intros; apply H; now right|].
    exists y. split; [|assumption]. destruct Hy as [->|Hy]; [congruence|assumption].
  - rewrite Hx. reflexivity.
Qed.

Theorem by_index_list : forall l ixs, let n := Z.of_nat (List.length l) in
  ((exists i, In i ixs /\ ~ (- n <= i < n)) -> new_train_ids l (ByIndexList ixs) = Err EIndexError) /\
  ((forall i, In i ixs -> - n <= i < n) ->
     exists ts r, Forall2 (fun i t => nth_error l (Z.to_nat (if i <? 0 then i + n else i)) = Some t) ixs ts /\
       new_train_ids l (ByIndexList ixs) = Ok r /\ Permutation ts r /\ StronglySorted Z.le r).
Proof.
  intros l ixs n. simpl. split.
  - intros (i & Hi & Hn). rewrite (@mapM_err _ _ (py_index l) EIndexError); [reflexivity| |].
    + intros j Hj. destruct (@py_index_spec _ l j) as [P1 P2]. fold n in P1, P2.
      destruct (py_index l j) as [x|e] eqn:E; [left; eauto|right].
      destruct (Z_le_dec (- n) j), (Z_lt_dec j n); try (apply P2; lia).
      exfalso. destruct (@nth_error_ex _ l (Z.to_nat (if j <? 0 then j + n else j))) as [x Hx].
      { destruct (j <? 0) eqn:Ej; [apply Z.ltb_lt in Ej|apply Z.ltb_ge in Ej]; unfold n in *; lia. }
      assert (Err e = Ok x); [|discriminate]. apply P1. split; [lia|assumption].
    + exists i. split; [assumption|]. now apply py_index_spec.
  - intros H. assert (exists ts, mapM (py_index l) ixs = Ok ts) as [ts Hts].
    { apply mapM_total. intros i Hi. specialize (H i Hi).
      destruct (@nth_error_ex _ l (Z.to_nat (if i <? 0 then i + n else i))) as [x Hx].
      { destruct (i <? 0) eqn:Ej; [apply Z.ltb_lt in Ej|apply Z.ltb_ge in Ej]; unfold n in *; lia. }
      exists x. apply py_index_spec. split; assumption. }
    rewrite Hts. simpl. exists ts, (zsort ts). split.
    + apply mapM_ok_iff in Hts. clear H. induction Hts; constructor; [|assumption].
      now apply py_index_spec in H as [_ H].
    + split; [reflexivity|]. split; [apply sort_key_perm|apply (sort_key_sorted (fun z => z))].
Qed.

(** ** The collection after select_trains *)
Section C.
Context {V : Type}.
Notation faccess := (faccess V).
Notation dcoll := (dcoll V).

Lemma select_trains_ok : forall (d : dcoll) tr r, reachable d -> new_train_ids (dc_tids d) tr = Ok r ->
  exists d', select_trains d tr = Ok d' /\ dc_tids d' = r /\ dc_sel d' = dc_sel d /\
    dc_files d' = files_overlap r (dc_files d).
Proof.
  intros d tr r Hr H. destruct (reachable_inv Hr) as [(Hc & _) _]. unfold select_trains. rewrite H. simpl.
  destruct (@mk_collection_total V (files_overlap r (dc_files d)) (Some (dc_sel d)) (Some r)) as [d' Hd'].
  { now apply conflicts_filter. }
  exists d'. split; [assumption|]. apply mk_collection_inv in Hd' as (H1 & _ & H2 & H3 & _). auto.
Qed.
Lemma select_trains_err : forall (d : dcoll) tr e, new_train_ids (dc_tids d) tr = Err e -> select_trains d tr = Err e.
Proof. intros d tr e H. unfold select_trains. now rewrite H. Qed.
End C.
