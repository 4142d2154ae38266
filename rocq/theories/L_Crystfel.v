(** Lemmas on CrystFEL geometry files: names and groups. *)

From Coq Require Import QArith.
From Verif Require Import Base PyStr M_Stacking S_Open S_Stacking L_Base M_Cxi L_Cxi7 M_Geom S_Geom L_Geom1 L_Geom4 M_Crystfel S_Crystfel.

Set Implicit Arguments.
Unset Strict Implicit.
Local Open Scope string_scope.
Local Open Scope Z_scope.
Local Open Scope list_scope.

(** ** Strings *)

Lemma has_char_app : forall c a b, has_char c (a ++ b)%string <-> has_char c a \/ has_char c b.
Proof. induction a as [|x a IH]; intros b; cbn; [tauto|]. rewrite IH. tauto. Qed.

Lemma digits_char : forall c s, all_digits s -> has_char c s -> is_digit c = true.
Proof. induction s as [|x s IH]; cbn; [tauto|]. intros [H1 H2] [-> |H]; auto. Qed.

Lemma digits_no : forall c z, is_digit c = false -> 0 <= z -> ~ has_char c (str_of_int z).
Proof. intros c z Hc Hz H. destruct (str_of_int_spec Hz) as (A & _). apply (digits_char A) in H. congruence. Qed.

Lemma partition_app : forall c a b, ~ has_char c a -> py_partition c (a ++ String c b)%string = (a, String c "", b).
Proof.
  induction a as [|x a IH]; intros b H; cbn.
  - rewrite Ascii.eqb_refl. reflexivity.
  - cbn in H. destruct (Ascii.eqb_spec x c) as [->|N]; [tauto|]. rewrite IH by tauto. reflexivity.
Qed.

Lemma partition_none : forall c a, ~ has_char c a -> py_partition c a = (a, "", "").
Proof.
  induction a as [|x a IH]; intros H; cbn; [reflexivity|].
  cbn in H. destruct (Ascii.eqb_spec x c) as [->|N]; [tauto|]. rewrite IH by tauto. reflexivity.
Qed.

Lemma split_none : forall c a, ~ has_char c a -> py_split c a = [a].
Proof.
  induction a as [|x a IH]; intros H; cbn; [reflexivity|].
  cbn in H. destruct (Ascii.eqb_spec x c) as [->|N]; [tauto|]. rewrite IH by tauto. reflexivity.
Qed.

Lemma split_app : forall c a b, ~ has_char c a -> py_split c (a ++ String c b)%string = a :: py_split c b.
Proof.
  induction a as [|x a IH]; intros b H; cbn.
  - rewrite Ascii.eqb_refl. reflexivity.
  - cbn in H. destruct (Ascii.eqb_spec x c) as [->|N]; [tauto|]. rewrite IH by tauto. reflexivity.
Qed.

Lemma split_join : forall l, (forall x, In x l -> ~ has_char "," x) -> l <> [] -> py_split "," (py_join "," l) = l.
Proof.
  induction l as [|x l IH]; intros H N; [congruence|]. destruct l as [|y l].
  - cbn. apply split_none. apply H. left. reflexivity.
  - change (py_join "," (x :: y :: l)) with (x ++ String "," (py_join "," (y :: l)))%string.
    rewrite split_app by (apply H; left; reflexivity). f_equal. apply IH; [|discriminate]. intros z Hz. apply H. right. exact Hz.
Qed.

Lemma split_join_In : forall l x, (forall y, In y l -> ~ has_char "," y) -> x <> "" -> (In x (py_split "," (py_join "," l)) <-> In x l).
Proof.
  intros l x H N. destruct l as [|y l]; [cbn; split; [intros [E|[]]; congruence|tauto]|].
  rewrite split_join; [reflexivity|exact H|discriminate].
Qed.

Lemma split_join_1 : forall l x, In x (py_split "," (py_join "," l)) -> (forall y, In y l -> ~ has_char "," y) -> x <> "" -> In x l.
Proof. intros l x H1 H2 H3. exact (proj1 (split_join_In H2 H3) H1). Qed.

(** ** Panel names *)

Lemma panel_name_names : forall p a, 0 <= p -> 0 <= a -> names_panel (panel_name p a) p a.
Proof.
  intros p a Hp Ha. destruct (str_of_int_spec Hp) as (A & B & C). destruct (str_of_int_spec Ha) as (A' & B' & C').
  exists (str_of_int p), (str_of_int a). auto 10.
Qed.

Lemma digits_sep : forall c a b a' b', is_digit c = false -> all_digits a -> all_digits a' ->
  (a ++ String c b)%string = (a' ++ String c b')%string -> a = a' /\ b = b'.
Proof.
  intros c a. induction a as [|x a IH]; intros b [|x' a'] b' Hc Ha Ha' E; cbn in *.
  - injection E as <-. auto.
  - injection E as <- _. destruct Ha' as [Ha' _]. congruence.
  - injection E as -> _. destruct Ha as [Ha _]. congruence.
  - injection E as -> E. destruct (IH b a' b') as [-> ->]; [exact Hc|tauto|tauto|exact E|]. auto.
Qed.

Lemma names_unique : forall n p a p' a', names_panel n p a -> names_panel n p' a' -> p = p' /\ a = a'.
Proof.
  intros n p a p' a' (sp & sa & -> & A & _ & B & _ & _ & C) (sp' & sa' & E & A' & _ & B' & _ & _ & C').
  cbn in E. injection E as E. apply digits_sep in E; [|reflexivity|assumption|assumption]. destruct E as [-> ->]. split; congruence.
Qed.

Lemma panel_name_inj : forall p a p' a', 0 <= p -> 0 <= a -> 0 <= p' -> 0 <= a' -> panel_name p a = panel_name p' a' -> p = p' /\ a = a'.
Proof.
  intros p a p' a' H1 H2 H3 H4 E. eapply names_unique; [apply panel_name_names; assumption|]. rewrite E. apply panel_name_names; assumption.
Qed.

Lemma panel_name_no : forall c p a, 0 <= p -> 0 <= a -> is_digit c = false -> c <> "p"%char -> c <> "a"%char -> ~ has_char c (panel_name p a).
Proof.
  intros c p a Hp Ha Hc N1 N2 H. unfold panel_name in H. cbn [append has_char] in H. destruct H as [H|H]; [congruence|].
  apply has_char_app in H. destruct H as [H|H]; [exact (digits_no Hc Hp H)|]. cbn [append has_char] in H.
  destruct H as [H|H]; [congruence|exact (digits_no Hc Ha H)].
Qed.

(** ** Splitting into groups *)

Fixpoint nsum (l : list nat) : nat := match l with [] => 0%nat | x :: r => (x + nsum r)%nat end.

Lemma take_parts_len : forall A sizes (l : list A), List.length (take_parts sizes l) = List.length sizes.
Proof. induction sizes; intros; cbn; auto. Qed.

Lemma take_parts_nth : forall A sizes (l : list A) k part, nth_error (take_parts sizes l) k = Some part ->
  exists size, nth_error sizes k = Some size /\ part = firstn size (skipn (nsum (firstn k sizes)) l).
Proof.
  induction sizes as [|s sizes IH]; intros l k part H; [destruct k; discriminate|]. destruct k as [|k]; cbn in *.
  - injection H as <-. exists s. auto.
  - destruct (IH _ _ _ H) as (size & H1 & ->). exists size. split; [exact H1|].
    rewrite skipn_skipn. reflexivity.
Qed.

Lemma nth_error_firstn' : forall A n (l : list A) i, (i < n)%nat -> nth_error (firstn n l) i = nth_error l i.
Proof. intros A n l i H. rewrite nth_error_firstn. apply Nat.ltb_lt in H. rewrite H. reflexivity. Qed.

Lemma firstn_skipn_In : forall A (l : list A) s n x, In x (firstn n (skipn s l)) <-> exists i, (s <= i < s + n)%nat /\ nth_error l i = Some x.
Proof.
  intros A l s n x. split.
  - intros H. apply In_nth_error in H. destruct H as [k Hk]. assert (Hl : (k < List.length (firstn n (skipn s l)))%nat) by (apply nth_error_Some; congruence).
    rewrite firstn_length in Hl. exists (s + k)%nat. split; [lia|]. rewrite <- nth_error_skipn. rewrite nth_error_firstn' in Hk by lia. exact Hk.
  - intros (i & Hi & Hx). apply nth_error_In with (n := (i - s)%nat). rewrite nth_error_firstn' by lia. rewrite nth_error_skipn. rewrite <- Hx. f_equal. lia.
Qed.

Lemma nsum_repeat : forall a n, nsum (repeat a n) = (a * n)%nat.
Proof. induction n as [|n IH]; cbn; [lia|]. rewrite IH. lia. Qed.

Lemma nsum_app : forall a b, nsum (a ++ b) = (nsum a + nsum b)%nat.
Proof. induction a as [|x a IH]; intros b; cbn; [reflexivity|]. rewrite IH. lia. Qed.

Lemma firstn_repeat : forall A (a : A) n k, firstn k (repeat a n) = repeat a (Nat.min k n).
Proof. induction n as [|n IH]; intros [|k]; cbn; try reflexivity. rewrite IH. reflexivity. Qed.

Lemma split_start : forall each e n k, (k <= n)%nat -> (e <= n)%nat ->
  nsum (firstn k (repeat (each + 1) e ++ repeat each (n - e)))%nat = (k * each + Nat.min k e)%nat.
Proof.
  intros each e n k Hk He. rewrite firstn_app, nsum_app, !firstn_repeat, !nsum_repeat, repeat_length.
  destruct (Nat.le_gt_cases k e) as [H|H].
  - replace (Nat.min (k - e) (n - e)) with 0%nat by lia. rewrite Nat.min_l by lia. nia.
  - rewrite (Nat.min_r k e) by lia. replace (Nat.min (k - e) (n - e)) with (k - e)%nat by lia. nia.
Qed.

Definition group_start (each e k : nat) : nat := (k * each + Nat.min k e)%nat.

Lemma array_split_spec : forall A (l : list A) n parts, np_array_split l n = Ok parts ->
  0 < n /\ List.length parts = Z.to_nat n /\
  forall k part, nth_error parts k = Some part ->
    let each := (List.length l / Z.to_nat n)%nat in let e := (List.length l mod Z.to_nat n)%nat in
    forall x, In x part <-> exists i, (group_start each e k <= i < group_start each e (S k))%nat /\ nth_error l i = Some x.
Proof.
  intros A l n parts H. unfold np_array_split in H. destruct (Z.leb_spec n 0) as [Hn|Hn]; [discriminate|]. injection H as <-.
  set (N := Z.to_nat n). set (len := List.length l).
  assert (Hm : (len mod N < N)%nat) by (apply Nat.mod_upper_bound; lia).
  assert (E1 : Z.to_nat (Z.of_nat len / n + 1) = (len / N + 1)%nat).
  { replace n with (Z.of_nat N) by lia. rewrite <- Nat2Z.inj_div. lia. }
  assert (E2 : Z.to_nat (Z.of_nat len / n) = (len / N)%nat).
  { replace n with (Z.of_nat N) by lia. rewrite <- Nat2Z.inj_div. lia. }
  assert (E3 : Z.to_nat (Z.of_nat len mod n) = (len mod N)%nat).
  { replace n with (Z.of_nat N) by lia. rewrite <- Nat2Z.inj_mod. lia. }
  assert (E4 : Z.to_nat (n - Z.of_nat len mod n) = (N - len mod N)%nat).
  { replace n with (Z.of_nat N) by lia. rewrite <- Nat2Z.inj_mod. lia. }
  rewrite E1, E2, E3, E4. split; [exact Hn|].
  set (sizes := repeat (len / N + 1)%nat (len mod N) ++ repeat (len / N)%nat (N - len mod N)).
  assert (Ls : List.length sizes = N) by (unfold sizes; rewrite app_length, !repeat_length; lia).
  split; [rewrite take_parts_len; exact Ls|].
  intros k part Hp each e x. destruct (take_parts_nth Hp) as (size & Hs & ->).
  assert (Hk : (k < N)%nat) by (rewrite <- Ls; apply nth_error_Some; congruence).
  rewrite firstn_skipn_In.
  assert (S0 : nsum (firstn k sizes) = group_start each e k) by (apply split_start; lia).
  assert (S1 : nsum (firstn (S k) sizes) = group_start each e (S k)) by (apply split_start; lia).
  assert (S2 : nsum (firstn (S k) sizes) = (nsum (firstn k sizes) + size)%nat).
  { clear -Hs. revert k Hs. induction sizes as [|s l0 IH]; intros k Hs; [destruct k; discriminate|]. destruct k as [|k]; cbn in *; [injection Hs as ->; lia|].
    rewrite (IH _ Hs). lia. }
  rewrite S0 in *. rewrite S1 in S2. rewrite <- S2. reflexivity.
Qed.

Lemma start_unique : forall each e i k k', (group_start each e k <= i < group_start each e (S k))%nat ->
  (group_start each e k' <= i < group_start each e (S k'))%nat -> k = k'.
Proof.
  intros each e i k k' H H'. unfold group_start in *.
  destruct (Nat.lt_trichotomy k k') as [G|[G|G]]; [|exact G|]; exfalso; [assert (S k <= k')%nat by lia|assert (S k' <= k)%nat by lia]; nia.
Qed.

Lemma start_exists : forall each e n i, (e <= n)%nat -> (i < group_start each e n)%nat ->
  exists k, (k < n)%nat /\ (group_start each e k <= i < group_start each e (S k))%nat.
Proof.
  intros each e n i He. assert (G : forall m, (i < group_start each e m)%nat -> exists k, (k < m)%nat /\ (group_start each e k <= i < group_start each e (S k))%nat).
  { induction m as [|m IH]; intros H; [cbn in H; lia|]. destruct (Nat.lt_ge_cases i (group_start each e m)) as [L|L].
    - destruct (IH L) as (k & Hk & Hi). exists k. split; [lia|exact Hi].
    - exists m. split; [lia|]. split; assumption. }
  exact (G n).
Qed.

Definition all_names (nm nt : nat) : list string := flat_map (fun p => map (panel_name p) (zr nt)) (zr nm).

Lemma flat_map_const : forall A B (f : A -> list B) k l, (forall x, In x l -> List.length (f x) = k) ->
  List.length (flat_map f l) = (List.length l * k)%nat /\
  forall i, nth_error (flat_map f l) i = match nth_error l (i / k) with Some x => nth_error (f x) (i mod k) | None => None end.
Proof.
  intros A B f k. destruct k as [|k].
  { intros l H. assert (E : flat_map f l = []).
    { induction l as [|a l IH]; [reflexivity|]. cbn. rewrite IH by (intros; apply H; right; assumption).
      pose proof (H a (or_introl eq_refl)) as L. destruct (f a); [reflexivity|discriminate]. }
    rewrite E. split; [cbn; lia|]. intros i. destruct (nth_error l (i / 0)) as [x|] eqn:Ex.
    - pose proof (H x (nth_error_In _ _ Ex)) as L. destruct (f x); [|discriminate]. destruct i, (_ mod 0)%nat; reflexivity.
    - destruct i; reflexivity. }
  induction l as [|a l IH]; intros H; cbn [flat_map].
  - split; [reflexivity|]. intros i. destruct i; [reflexivity|]. cbn [nth_error]. destruct (S i / S k)%nat; reflexivity.
  - destruct IH as [L1 L2]; [intros; apply H; right; assumption|]. pose proof (H a (or_introl eq_refl)) as La.
    split; [rewrite app_length, L1, La; cbn [List.length]; lia|].
    intros i. destruct (Nat.lt_ge_cases i (S k)) as [Hi|Hi].
    + rewrite nth_error_app1 by lia. rewrite Nat.div_small, Nat.mod_small by lia. reflexivity.
    + rewrite nth_error_app2, La by lia. rewrite L2.
      remember (i - S k)%nat as j eqn:Ej. assert (E : (i = j + 1 * S k)%nat) by lia. rewrite E.
      rewrite Nat.div_add, Nat.mod_add by lia. rewrite Nat.add_1_r. reflexivity.
Qed.

Lemma all_names_len : forall nm nt, List.length (all_names nm nt) = (nm * nt)%nat.
Proof.
  intros nm nt. destruct (@flat_map_const Z string (fun p => map (panel_name p) (zr nt)) nt (zr nm)) as [L _].
  { intros. rewrite map_length. apply zr_length. }
  unfold all_names. rewrite L, zr_length. reflexivity.
Qed.

Lemma all_names_nth : forall nm nt i x, nth_error (all_names nm nt) i = Some x <->
  (i < nm * nt)%nat /\ x = panel_name (Z.of_nat (i / nt)) (Z.of_nat (i mod nt)).
Proof.
  intros nm nt i x. pose proof (all_names_len nm nt) as Hl.
  assert (Key : (i < nm * nt)%nat -> nth_error (all_names nm nt) i = Some (panel_name (Z.of_nat (i / nt)) (Z.of_nat (i mod nt)))).
  { intros Hi. destruct (@flat_map_const Z string (fun p => map (panel_name p) (zr nt)) nt (zr nm)) as [_ L].
    { intros. rewrite map_length. apply zr_length. }
    unfold all_names. rewrite L. assert (nt <> 0)%nat by lia.
    assert (D : (i / nt < nm)%nat) by (apply Nat.div_lt_upper_bound; lia).
    assert (M : (i mod nt < nt)%nat) by (apply Nat.mod_upper_bound; lia).
    pose proof (@zr_nth nm (Z.of_nat (i / nt))) as Z1. rewrite Nat2Z.id in Z1. rewrite Z1 by lia.
    rewrite nth_error_map. pose proof (@zr_nth nt (Z.of_nat (i mod nt))) as Z2. rewrite Nat2Z.id in Z2. rewrite Z2 by lia. reflexivity. }
  split.
  - intros H. assert (Hi : (i < nm * nt)%nat) by (rewrite <- Hl; apply nth_error_Some; congruence). split; [exact Hi|].
    rewrite Key in H by exact Hi. congruence.
  - intros [Hi ->]. apply Key. exact Hi.
Qed.

(** the index of a panel in the list *)
Lemma all_names_index : forall nm nt i p a, 0 <= p < Z.of_nat nm -> 0 <= a < Z.of_nat nt ->
  (nth_error (all_names nm nt) i = Some (panel_name p a) <-> i = (Z.to_nat p * nt + Z.to_nat a)%nat).
Proof.
  intros nm nt i p a Hp Ha. rewrite all_names_nth. split.
  - intros [Hi E]. apply panel_name_inj in E; [|lia|lia|lia|lia]. destruct E as [E1 E2]. rewrite E1, E2, !Nat2Z.id.
    rewrite (Nat.mul_comm (i / nt)). apply Nat.div_mod. lia.
  - intros ->. split; [nia|]. rewrite Nat.div_add_l, Nat.div_small, Nat.add_0_r by lia.
    rewrite Nat.add_comm, Nat.mod_add, Nat.mod_small by lia. rewrite !Z2Nat.id by lia. reflexivity.
Qed.

Lemma all_names_form : forall nm nt x, In x (all_names nm nt) -> x <> "" /\ ~ has_char "," x.
Proof.
  intros nm nt x H. apply In_nth_error in H. destruct H as [i H]. apply all_names_nth in H. destruct H as [_ ->].
  split; [discriminate|]. apply panel_name_no; [lia|lia|reflexivity|discriminate|discriminate].
Qed.

(** ** The rigid groups *)

Lemma str_of_int_inj : forall a b, 0 <= a -> 0 <= b -> str_of_int a = str_of_int b -> a = b.
Proof. intros a b Ha Hb E. destruct (str_of_int_spec Ha) as (_ & _ & A). destruct (str_of_int_spec Hb) as (_ & _ & B). congruence. Qed.

Lemma group_line : forall nm nt nq f (pre : string) k v, get_rigid_groups nm nt nq = Ok f -> 0 <= k -> 
  In (group_name pre k, CText v) f -> pre = "q" \/ pre = "p" ->
  exists n parts part, n = (if String.eqb pre "q" then nq else nm) /\
    np_array_split (all_names (Z.to_nat nm) (Z.to_nat nt)) n = Ok parts /\ nth_error parts (Z.to_nat k) = Some part /\ v = py_join "," part.
Proof.
  intros nm nt nq f pre k v H Hk Hin Hp. unfold get_rigid_groups in H.
  change (flat_map (fun p => map (panel_name p) (zr (Z.to_nat nt))) (zr (Z.to_nat nm))) with (all_names (Z.to_nat nm) (Z.to_nat nt)) in H.
  destruct (np_array_split (all_names (Z.to_nat nm) (Z.to_nat nt)) nq) as [qs|] eqn:Eq; [|discriminate]. cbn [bind] in H.
  destruct (np_array_split (all_names (Z.to_nat nm) (Z.to_nat nt)) nm) as [ps|] eqn:Ep; [|discriminate]. cbn [bind] in H.
  injection H as <-. rewrite !in_app_iff, !in_map_iff in Hin. destruct (str_of_int_spec Hk) as (Ak & Nk & _).
  destruct Hin as [((k' & part) & E & Hin)|[((k' & part) & E & Hin)|Hin]]; cbn [fst snd] in *.
  - apply pair_equal_spec in E. destruct E as [E E']. injection E' as <-. unfold group_name in E. cbn [append] in E.
    apply zenum_In in Hin. destruct Hin as [K Hin].
    destruct Hp as [-> | ->]; cbn [append] in E; [|exfalso; congruence].
    injection E as E. apply str_of_int_inj in E; [|assumption|assumption]. subst k'. exists nq, qs, part. auto.
  - apply pair_equal_spec in E. destruct E as [E E']. injection E' as <-. unfold group_name in E. cbn [append] in E.
    apply zenum_In in Hin. destruct Hin as [K Hin].
    destruct Hp as [-> | ->]; cbn [append] in E; [exfalso; congruence|].
    injection E as E. apply str_of_int_inj in E; [|assumption|assumption]. subst k'. exists nm, ps, part. auto.
  - exfalso. destruct Hp as [-> | ->]; unfold group_name in Hin; cbn [append] in Hin; destruct Hin as [E|[E|[]]]; apply pair_equal_spec in E; destruct E as [E _]; discriminate E.
Qed.

Lemma group_line_ex : forall nm nt nq f (pre : string) k, get_rigid_groups nm nt nq = Ok f ->
  pre = "q" \/ pre = "p" -> 0 <= k < (if String.eqb pre "q" then nq else nm) -> exists v, In (group_name pre k, CText v) f.
Proof.
  intros nm nt nq f pre k H Hp Hk. unfold get_rigid_groups in H.
  destruct (np_array_split _ nq) as [qs|] eqn:Eq; [|discriminate]. cbn [bind] in H.
  destruct (np_array_split _ nm) as [ps|] eqn:Ep; [|discriminate]. cbn [bind] in H. injection H as <-.
  apply array_split_spec in Eq. destruct Eq as (_ & Lq & _). apply array_split_spec in Ep. destruct Ep as (_ & Lp & _).
  destruct Hp as [-> | ->]; cbn [String.eqb Ascii.eqb Bool.eqb] in Hk.
  - destruct (nth_error qs (Z.to_nat k)) as [part|] eqn:E; [|apply nth_error_None in E; lia].
    exists (py_join "," part). apply in_or_app. left. apply in_map_iff. exists (k, part). split; [reflexivity|]. apply zenum_In. split; [lia|exact E].
  - destruct (nth_error ps (Z.to_nat k)) as [part|] eqn:E; [|apply nth_error_None in E; lia].
    exists (py_join "," part). apply in_or_app. right. apply in_or_app. left. apply in_map_iff. exists (k, part). split; [reflexivity|]. apply zenum_In. split; [lia|exact E].
Qed.

Lemma group_member : forall nm nt nq f (pre : string) k p a, get_rigid_groups nm nt nq = Ok f -> 0 <= k -> pre = "q" \/ pre = "p" ->
  0 <= p < nm -> 0 <= a < nt ->
  let n := Z.to_nat (if String.eqb pre "q" then nq else nm) in let len := (Z.to_nat nm * Z.to_nat nt)%nat in
  let i := (Z.to_nat p * Z.to_nat nt + Z.to_nat a)%nat in
  (in_group f (group_name pre k) (panel_name p a) <->
   (Z.to_nat k < n)%nat /\ (group_start (len / n) (len mod n) (Z.to_nat k) <= i < group_start (len / n) (len mod n) (S (Z.to_nat k)))%nat).
Proof.
  intros nm nt nq f pre k p a H Hk Hpre Hp Ha n len i. split.
  - intros (v & Hin & Hm). destruct (group_line H Hk Hin Hpre) as (n' & parts & part & En & Es & Hpart & ->).
    destruct (array_split_spec Es) as (Hn & Hl & Hs). specialize (Hs _ _ Hpart). cbv zeta in Hs. rewrite all_names_len in Hs.
    assert (Hall : forall y, In y part -> y <> "" /\ ~ has_char "," y).
    { intros y Hy. apply Hs in Hy. destruct Hy as (j & _ & Hj). apply (@all_names_form (Z.to_nat nm) (Z.to_nat nt)). eapply nth_error_In. exact Hj. }
    apply split_join_1 in Hm; [|intros y Hy; apply Hall; exact Hy|discriminate].
    apply Hs in Hm. destruct Hm as (j & Hj & Hx). apply all_names_index in Hx; [|lia|lia]. unfold n, len, i. rewrite <- En. subst j. split; [|exact Hj].
    rewrite <- Hl. apply nth_error_Some. congruence.
  - intros [Hkn Hi]. destruct (@group_line_ex nm nt nq f pre k H Hpre) as [v Hv].
    { split; [exact Hk|]. unfold n in Hkn. lia. }
    exists v. split; [exact Hv|]. destruct (group_line H Hk Hv Hpre) as (n' & parts & part & En & Es & Hpart & ->).
    destruct (array_split_spec Es) as (Hn & Hl & Hs). specialize (Hs _ _ Hpart). cbv zeta in Hs. rewrite all_names_len in Hs.
    assert (Hall : forall y, In y part -> y <> "" /\ ~ has_char "," y).
    { intros y Hy. apply Hs in Hy. destruct Hy as (j & _ & Hj). apply (@all_names_form (Z.to_nat nm) (Z.to_nat nt)). eapply nth_error_In. exact Hj. }
    apply split_join_In; [intros y Hy; apply Hall; exact Hy|discriminate|].
    apply Hs. exists i. unfold n, len in Hi. rewrite <- En in Hi. split; [exact Hi|]. apply all_names_index; [lia|lia|reflexivity].
Qed.

Lemma rigid_quadrant : forall nm nt nq f p a, get_rigid_groups nm nt nq = Ok f -> 0 <= p < nm -> 0 <= a < nt ->
  exists k, 0 <= k < nq /\ in_group f (group_name "q" k) (panel_name p a) /\
  forall k', 0 <= k' -> in_group f (group_name "q" k') (panel_name p a) -> k' = k.
Proof.
  intros nm nt nq f p a H Hp Ha.
  assert (Hq : 0 < nq). { unfold get_rigid_groups in H. destruct (np_array_split _ nq) eqn:E; [|discriminate]. apply array_split_spec in E. tauto. }
  set (n := Z.to_nat nq). set (len := (Z.to_nat nm * Z.to_nat nt)%nat). set (i := (Z.to_nat p * Z.to_nat nt + Z.to_nat a)%nat).
  assert (Hm : (len mod n < n)%nat) by (apply Nat.mod_upper_bound; lia).
  destruct (@start_exists (len / n) (len mod n) n i) as (k & Hk & Hi); [lia| |].
  { unfold group_start. rewrite Nat.min_r by lia. rewrite <- Nat.div_mod by lia. unfold i, len. nia. }
  exists (Z.of_nat k). split; [lia|]. split.
  - apply (@group_member nm nt nq f "q" (Z.of_nat k) p a H); [lia|left; reflexivity|exact Hp|exact Ha|].
    cbn [String.eqb Ascii.eqb Bool.eqb]. rewrite Nat2Z.id. split; [exact Hk|exact Hi].
  - intros k' Hk' Hin. apply (@group_member nm nt nq f "q" k' p a H) in Hin; [|lia|left; reflexivity|exact Hp|exact Ha].
    cbn [String.eqb Ascii.eqb Bool.eqb] in Hin. destruct Hin as [_ Hin]. pose proof (start_unique Hin Hi). lia.
Qed.

Lemma start_exact : forall each k, group_start each 0 k = (k * each)%nat.
Proof. intros. unfold group_start. rewrite Nat.min_0_r. lia. Qed.

Lemma rigid_whole : forall nm nt nq f p a k, get_rigid_groups nm nt nq = Ok f -> 0 <= p < nm -> 0 <= a < nt -> 0 <= k -> nm mod nq = 0 ->
  (in_group f (group_name "q" k) (panel_name p a) <-> p / (nm / nq) = k).
Proof.
  intros nm nt nq f p a k H Hp Ha Hk Hd.
  assert (Hq : 0 < nq). { unfold get_rigid_groups in H. destruct (np_array_split _ nq) eqn:E; [|discriminate]. apply array_split_spec in E. tauto. }
  rewrite (@group_member nm nt nq f "q" k p a H Hk (or_introl eq_refl) Hp Ha). cbn [String.eqb Ascii.eqb Bool.eqb].
  apply Z.mod_divide in Hd; [|lia]. destruct Hd as [r Hr]. assert (0 < r) by nia.
  assert (Er : nm / nq = r) by (rewrite Hr; apply Z.div_mul; lia). rewrite Er.
  assert (El : (Z.to_nat nm * Z.to_nat nt = (Z.to_nat r * Z.to_nat nt) * Z.to_nat nq)%nat) by (rewrite Hr, Z2Nat.inj_mul by lia; lia).
  rewrite El, Nat.div_mul, Nat.mod_mul, !start_exact by lia. clear El.
  split.
  - intros [Hkn Hi]. symmetry. apply Z.div_unique with (r := p - r * k); [|lia]. left. nia.
  - intros <-. pose proof (Z.div_mod p r ltac:(lia)) as Dm. pose proof (Z.mod_pos_bound p r ltac:(lia)) as Mb.
    assert (Hd : 0 <= p / r < nq). { split; [apply Z.div_pos; lia|]. apply Z.div_lt_upper_bound; lia. }
    split; [lia|]. set (k := Z.to_nat (p / r)) in *. assert (Ek : Z.of_nat k = p / r) by lia.
    assert (E1 : (k * Z.to_nat r <= Z.to_nat p < S k * Z.to_nat r)%nat) by nia. nia.
Qed.

Lemma rigid_module : forall nm nt nq f p a k, get_rigid_groups nm nt nq = Ok f -> 0 <= p < nm -> 0 <= a < nt -> 0 <= k ->
  (in_group f (group_name "p" k) (panel_name p a) <-> p = k).
Proof.
  intros nm nt nq f p a k H Hp Ha Hk.
  rewrite (@group_member nm nt nq f "p" k p a H Hk (or_intror eq_refl) Hp Ha). cbn [String.eqb Ascii.eqb Bool.eqb].
  rewrite (Nat.mul_comm (Z.to_nat nm)), Nat.div_mul, Nat.mod_mul, !start_exact by lia.
  split.
  - intros [Hkn Hi]. assert (Z.to_nat p = Z.to_nat k) by nia. lia.
  - intros <-. split; [lia|]. nia.
Qed.

(** groups only name panels of the detector *)
Lemma rigid_only : forall nm nt nq f pre k x, get_rigid_groups nm nt nq = Ok f -> 0 <= k -> pre = "q" \/ pre = "p" -> x <> "" ->
  in_group f (group_name pre k) x -> exists p a, 0 <= p < nm /\ 0 <= a < nt /\ x = panel_name p a.
Proof.
  intros nm nt nq f pre k x H Hk Hpre Nx (v & Hin & Hm). destruct (group_line H Hk Hin Hpre) as (n' & parts & part & En & Es & Hpart & ->).
  destruct (array_split_spec Es) as (Hn & Hl & Hs). specialize (Hs _ _ Hpart). cbv zeta in Hs.
  apply split_join_1 in Hm; [| |exact Nx].
  - apply Hs in Hm. destruct Hm as (i & _ & Hi). apply all_names_nth in Hi. destruct Hi as [Hi ->].
    assert (Z.to_nat nt <> 0)%nat by lia.
    assert (D : (i / Z.to_nat nt < Z.to_nat nm)%nat) by (apply Nat.div_lt_upper_bound; lia).
    assert (M : (i mod Z.to_nat nt < Z.to_nat nt)%nat) by (apply Nat.mod_upper_bound; lia).
    exists (Z.of_nat (i / Z.to_nat nt)), (Z.of_nat (i mod Z.to_nat nt)). repeat split; lia.
  - intros y Hy. apply Hs in Hy. destruct Hy as (j & _ & Hj). apply (@all_names_form (Z.to_nat nm) (Z.to_nat nt)). eapply nth_error_In. exact Hj.
Qed.

Lemma rigid_ok : forall nm nt nq, 0 < nm -> 0 < nq -> exists f, get_rigid_groups nm nt nq = Ok f.
Proof.
  intros nm nt nq H1 H2. unfold get_rigid_groups, np_array_split.
  destruct (Z.leb_spec nq 0); [lia|]. destruct (Z.leb_spec nm 0); [lia|]. cbn [bind]. eauto.
Qed.
