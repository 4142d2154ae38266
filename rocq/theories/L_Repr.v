(** Representations of slices are unambiguous. *)

From Verif Require Import Base L_Base PyStr M_Cxi S_Open M_Stacking S_Stacking L_Cxi7 M_Crystfel L_Crystfel M_OpenRun S_OpenRun L_OpenRun M_Repr S_Repr.

Set Implicit Arguments.
Unset Strict Implicit.
Local Open Scope string_scope.
Local Open Scope Z_scope.
Local Open Scope list_scope.
Local Opaque str_of_int.

Lemma app_assoc_s : forall a b c, ((a ++ b) ++ c)%string = (a ++ (b ++ c))%string.
Proof. induction a as [|x a IH]; intros b c; cbn; [reflexivity|]. now rewrite IH. Qed.

Lemma digits_split : forall a b s t, all_digits a -> all_digits b -> no_digit_first s -> no_digit_first t ->
  (a ++ s)%string = (b ++ t)%string -> a = b /\ s = t.
Proof.
  induction a as [|x a IH]; intros [|y b] s t Ha Hb Hs Ht E; cbn in E.
  - auto.
  - subst s. destruct Hb as [Hb _]. cbn in Hs. congruence.
  - subst t. destruct Ha as [Ha _]. cbn in Ht. congruence.
  - injection E as -> E. destruct Ha as [_ Ha], Hb as [_ Hb]. destruct (IH b s t Ha Hb Hs Ht E) as [-> ->]. auto.
Qed.

Definition int_char (c : ascii) : Prop := c = "-"%char \/ is_digit c = true.

Lemma str_first : forall z, 0 <= z -> exists c r, str_of_int z = String c r /\ is_digit c = true.
Proof.
  intros z H. destruct (str_of_int_spec H) as (A & N & _). destruct (str_of_int z) as [|c r]; [congruence|]. exists c, r. split; [reflexivity|apply A].
Qed.

Lemma int_first : forall z, exists c r, int_repr z = String c r /\ int_char c.
Proof.
  intros z. unfold int_repr. destruct (z <? 0) eqn:E.
  - eexists _, _. split; [reflexivity|]. left. reflexivity.
  - apply Z.ltb_ge in E. destruct (str_first E) as (c & r & -> & D). exists c, r. split; [reflexivity|right; exact D].
Qed.

Lemma int_repr_inj : forall a b s t, no_digit_first s -> no_digit_first t -> (int_repr a ++ s)%string = (int_repr b ++ t)%string -> a = b /\ s = t.
Proof.
  intros a b s t Hs Ht. unfold int_repr.
  destruct (a <? 0) eqn:Ea; destruct (b <? 0) eqn:Eb; rewrite ?Z.ltb_lt, ?Z.ltb_ge in *; intros E.
  - assert (0 <= - a) by lia. assert (0 <= - b) by lia.
    assert (C : forall c u v, (String c u ++ v)%string = String c (u ++ v)) by reflexivity. rewrite !C in E. clear C.
    assert (I : forall c u v, String c u = String c v -> u = v) by (intros c u v X; injection X; auto). apply I in E. clear I.
    destruct (@digits_split (str_of_int (- a)) (str_of_int (- b)) s t) as [X ->]; auto; try (apply str_of_int_spec; assumption).
    apply str_of_int_inj in X; [|assumption|assumption]. split; [lia|reflexivity].
  - destruct (str_first Eb) as (c & r & X & D). rewrite X in E. clear X. cbn [append] in E. assert (I : forall c d u v, String c u = String d v -> c = d) by (intros ? ? ? ? Y; injection Y; auto). apply I in E. subst c. discriminate D.
  - destruct (str_first Ea) as (c & r & X & D). rewrite X in E. clear X. cbn [append] in E. assert (I : forall c d u v, String c u = String d v -> c = d) by (intros ? ? ? ? Y; injection Y; auto). apply I in E. subst c. discriminate D.
  - destruct (@digits_split (str_of_int a) (str_of_int b) s t) as [X ->]; auto; try (apply str_of_int_spec; assumption).
    apply str_of_int_inj in X; auto.
Qed.

Local Opaque int_repr.
(** What may follow a number, and what may follow an item. *)
Definition stop (s : string) : Prop := exists c r, s = String c r /\ (c = ":" \/ c = "," \/ c = "]")%char.
Definition fin (s : string) : Prop := exists c r, s = String c r /\ (c = "," \/ c = "]")%char.
Lemma fin_stop : forall s, fin s -> stop s.
Proof. intros s (c & r & E & H). exists c, r. tauto. Qed.
Lemma stop_nd : forall s, stop s -> no_digit_first s.
Proof. intros s (c & r & -> & [-> | [-> | ->]]); reflexivity. Qed.
Lemma colon_stop : forall s, stop (":" ++ s)%string.
Proof. intros s. exists ":"%char, s. auto. Qed.

Lemma stop_not_int : forall s z t, stop s -> s = (int_repr z ++ t)%string -> False.
Proof.
  intros s z t (c & r & -> & H) E. destruct (int_first z) as (d & r' & X & [-> | D]); rewrite X in E; cbn in E; injection E as E _; subst;
    destruct H as [H|[H|H]]; try discriminate; rewrite H in D; discriminate.
Qed.

Lemma opt_repr_inj : forall a b s t, stop s -> stop t -> (opt_repr a ++ s)%string = (opt_repr b ++ t)%string -> a = b /\ s = t.
Proof.
  intros [a|] [b|] s t Hs Ht E; cbn [opt_repr] in E.
  - destruct (@int_repr_inj a b s t) as [-> ->]; auto using stop_nd.
  - exfalso. exact (@stop_not_int t a s Ht (eq_sym E)).
  - exfalso. exact (@stop_not_int s b t Hs E).
  - auto.
Qed.

Lemma fin_not_colon : forall s t, fin s -> s = (":" ++ t)%string -> False.
Proof. intros s t (c & r & -> & [-> | ->]) E; discriminate. Qed.

(** ** Lists *)
Section Join.
Variables (X : Type) (P : X -> string).
Hypothesis P_inj : forall x y s t, fin s -> fin t -> (P x ++ s)%string = (P y ++ t)%string -> x = y /\ s = t.
Hypothesis P_first : forall x, exists c r, P x = String c r /\ c <> "]"%char.

Definition rest (l : list X) (s : string) : string :=
  match l with [] => ("]" ++ s)%string | _ => (", " ++ py_join ", " (map P l) ++ "]" ++ s)%string end.
Lemma rest_fin : forall l s, fin (rest l s).
Proof. intros [|x l] s; cbn [rest]; eexists _, _; (split; [reflexivity|]); auto. Qed.
Lemma join_cons : forall x l s, (py_join ", " (map P (x :: l)) ++ "]" ++ s)%string = (P x ++ rest l s)%string.
Proof.
  intros x [|y l] s; cbn [map rest]; [reflexivity|].
  change (py_join ", " (P x :: P y :: map P l)) with (P x ++ ", " ++ py_join ", " (P y :: map P l))%string.
  rewrite !app_assoc_s. reflexivity.
Qed.

Lemma join_inj : forall l l' s t, (py_join ", " (map P l) ++ "]" ++ s)%string = (py_join ", " (map P l') ++ "]" ++ t)%string -> l = l' /\ s = t.
Proof.
  assert (Nil : forall x l s t, ("]" ++ s)%string = (py_join ", " (map P (x :: l)) ++ "]" ++ t)%string -> False).
  { intros x l s t E. rewrite join_cons in E. destruct (P_first x) as (c & r & Y & N). rewrite Y in E. cbn in E. injection E as E _. congruence. }
  induction l as [|x l IH]; intros [|y l'] s t E.
  - cbn in E. injection E as ->. auto.
  - exfalso. exact (Nil _ _ _ _ E).
  - exfalso. exact (Nil _ _ _ _ (eq_sym E)).
  - rewrite !join_cons in E. destruct (P_inj (rest_fin l s) (rest_fin l' t) E) as [-> R].
    destruct l as [|x' l], l' as [|y' l']; cbn [rest] in R.
    + cbn in R. injection R as ->. auto.
    + discriminate.
    + discriminate.
    + change ((", " ++ ?u)%string) with (String "," (String " " u)) in R. injection R as R.
      destruct (IH (y' :: l') s t R) as [Q ->]. rewrite Q. auto.
Qed.
End Join.

Lemma int_ok : forall x y s t, fin s -> fin t -> (int_repr x ++ s)%string = (int_repr y ++ t)%string -> x = y /\ s = t.
Proof. intros x y s t Hs Ht. apply int_repr_inj; apply stop_nd, fin_stop; assumption. Qed.
Lemma int_not_bracket : forall x, exists c r, int_repr x = String c r /\ c <> "]"%char.
Proof.
  intros x. destruct (int_first x) as (c & r & E & C). exists c, r. split; [exact E|].
  intros ->. destruct C as [C|C]; discriminate.
Qed.

Definition step_repr (c : option Z) : string := match c with Some z => ":" ++ int_repr z | None => "" end.

Lemma slice_app : forall a b c s, (indexing_repr (ISlice a b c) ++ s)%string = (opt_repr a ++ (":" ++ (opt_repr b ++ (step_repr c ++ s))))%string.
Proof. intros a b c s. cbn [indexing_repr]. fold (step_repr c). rewrite !app_assoc_s. reflexivity. Qed.

Lemma step_stop : forall c s, fin s -> stop (step_repr c ++ s)%string.
Proof. intros [z|] s H; cbn [step_repr]; [apply colon_stop|apply fin_stop; exact H]. Qed.

Lemma slice_not_int : forall z a b c s t, fin s -> (int_repr z ++ s)%string = (indexing_repr (ISlice a b c) ++ t)%string -> False.
Proof.
  intros z a b c s t Hs E. rewrite slice_app in E. destruct a as [a|]; cbn [opt_repr] in E.
  - destruct (@int_repr_inj z a s (":" ++ (opt_repr b ++ (step_repr c ++ t)))%string) as [_ X]; auto; [apply stop_nd, fin_stop; exact Hs|reflexivity|].
    exact (fin_not_colon Hs X).
  - apply (@stop_not_int (":" ++ (opt_repr b ++ (step_repr c ++ t)))%string z s); [apply colon_stop|]. symmetry. exact E.
Qed.

Lemma slice_first : forall a b c, exists x r, indexing_repr (ISlice a b c) = String x r /\ (x = ":"%char \/ int_char x).
Proof.
  intros [a|] b c; cbn [indexing_repr opt_repr].
  - destruct (int_first a) as (x & r & -> & H). eexists _, _. split; [reflexivity|auto].
  - eexists _, _. split; [reflexivity|auto].
Qed.

Lemma item_first : forall i, exists x r, indexing_repr i = String x r /\
  match i with IInt _ => int_char x | ISlice _ _ _ => x = ":"%char \/ int_char x | IEllipsis => x = "."%char | IList _ => x = "["%char end.
Proof.
  intros [z|a b c| |l].
  - apply int_first.
  - apply slice_first.
  - eexists _, _. split; reflexivity.
  - eexists _, _. split; reflexivity.
Qed.

Lemma int_char_not : forall x, int_char x -> x <> "."%char /\ x <> "["%char /\ x <> ":"%char /\ x <> "]"%char.
Proof. intros x [-> |H]; repeat split; try discriminate; intros ->; discriminate. Qed.

Lemma item_inj : forall i j s t, fin s -> fin t -> (indexing_repr i ++ s)%string = (indexing_repr j ++ t)%string -> i = j /\ s = t.
Proof.
  intros i j s t Hs Ht E.
  destruct (item_first i) as (x & r & Ei & Ci). destruct (item_first j) as (y & r' & Ej & Cj).
  assert (XY : x = y) by (rewrite Ei, Ej in E; cbn in E; injection E; auto). subst y.
  pose proof (@int_char_not x) as N.
  destruct i as [z|a b c| |l], j as [z'|a' b' c'| |l'];
    try (exfalso; rewrite Ci in Cj; destruct Cj as [Cj|Cj]; [discriminate Cj|destruct (int_char_not Cj) as (? & ? & _); congruence]);
    try (exfalso; rewrite Cj in Ci; destruct Ci as [Ci|Ci]; [discriminate Ci|destruct (int_char_not Ci) as (? & ? & _); congruence]);
    try (exfalso; rewrite Ci in Cj; discriminate Cj);
    try (exfalso; destruct (int_char_not Ci) as (? & ? & _); congruence);
    try (exfalso; destruct (int_char_not Cj) as (? & ? & _); congruence).
  - cbn [indexing_repr] in E. destruct (int_ok Hs Ht E) as [-> ->]. auto.
  - exfalso. exact (slice_not_int Hs E).
  - exfalso. exact (slice_not_int Ht (eq_sym E)).
  - rewrite !slice_app in E. destruct (opt_repr_inj (colon_stop _) (colon_stop _) E) as [-> E1].
    change ((":" ++ ?u)%string) with (String ":" u) in E1. injection E1 as E1.
    destruct (opt_repr_inj (step_stop c Hs) (step_stop c' Ht) E1) as [-> E2].
    destruct c as [c|], c' as [c'|]; cbn [step_repr] in E2.
    + change (((":" ++ ?u) ++ ?v)%string) with (String ":" (u ++ v)) in E2. injection E2 as E2. destruct (int_ok Hs Ht E2) as [-> ->]. auto.
    + exfalso. change (((":" ++ ?u) ++ ?v)%string) with (":" ++ (u ++ v))%string in E2. exact (fin_not_colon Ht (eq_sym E2)).
    + exfalso. change (((":" ++ ?u) ++ ?v)%string) with (":" ++ (u ++ v))%string in E2. exact (fin_not_colon Hs E2).
    + cbn in E2. auto.
  - cbn in E. injection E as ->. auto.
  - cbn [indexing_repr] in E. rewrite !app_assoc_s in E. change (("[" ++ ?u)%string) with (String "[" u) in E. injection E as E.
    destruct (join_inj int_ok int_not_bracket E) as [-> ->]. auto.
Qed.

Lemma item_not_bracket : forall i, exists c r, indexing_repr i = String c r /\ c <> "]"%char.
Proof.
  intros i. destruct (item_first i) as (x & r & E & C). exists x, r. split; [exact E|].
  destruct i; [apply int_char_not in C; tauto|destruct C as [-> |C]; [discriminate|apply int_char_not in C; tauto]|subst; discriminate|subst; discriminate].
Qed.

Definition items (v : value) : list item := match v with VOne i => [i] | VTuple l => l end.

Lemma repr_inj : forall c c' v v', slice_repr c v = slice_repr c' v' -> c = c' /\ items v = items v'.
Proof.
  intros c c' v v' E. unfold slice_repr in E. fold (items v) (items v') in E.
  assert (J : forall u u' : list item, (py_join ", " (map indexing_repr u) ++ "]")%string = (py_join ", " (map indexing_repr u') ++ "]")%string -> u = u').
  { intros u u' X. apply (@join_inj _ indexing_repr item_inj item_not_bracket u u' "" ""). exact X. }
  destruct c, c'; try (split; [reflexivity|]).
  - change (("by_id" ++ "[" ++ ?u)%string) with (String "b" (String "y" (String "_" (String "i" (String "d" (String "[" u)))))) in E. injection E as E. auto.
  - exfalso. discriminate.
  - exfalso. discriminate.
  - change (("by_index" ++ "[" ++ ?u)%string) with (String "b" (String "y" (String "_" (String "i" (String "n" (String "d" (String "e" (String "x" (String "[" u))))))))) in E.
    injection E as E. auto.
Qed.

(** ** What is printed is an expression *)
Local Transparent int_repr.
Lemma app_nil_s : forall s, (s ++ "")%string = s.
Proof. induction s as [|c s IH]; cbn; [reflexivity|now rewrite IH]. Qed.
Lemma int_expr_repr : forall z, int_expr z (int_repr z).
Proof.
  intros z. unfold int_repr. destruct (z <? 0) eqn:E.
  - apply Z.ltb_lt in E. rewrite <- (Z.opp_involutive z) at 1. constructor; [apply str_of_int_numeral; lia|apply str_of_int_first; lia].
  - apply Z.ltb_ge in E. constructor; [apply str_of_int_numeral; exact E|]. destruct (Z.eq_dec z 0) as [->|N]; [right; reflexivity|left; apply str_of_int_first; lia].
Qed.
Lemma bound_expr_repr : forall o, bound_expr o (opt_repr o).
Proof. intros [z|]; cbn; constructor. apply int_expr_repr. Qed.
Lemma series_expr_join A (expr : A -> string -> Prop) (f : A -> string) : (forall a, expr a (f a)) ->
  forall l, l <> [] -> series_expr expr l (py_join ", " (map f l)).
Proof.
  intros H. induction l as [|a l IH]; [congruence|]. intros _. destruct l as [|b l]; [constructor; apply H|].
  change (py_join ", " (map f (a :: b :: l))) with (f a ++ ", " ++ py_join ", " (map f (b :: l)))%string. constructor; [apply H|apply IH; discriminate].
Qed.
Lemma item_expr_repr : forall i, item_expr i (indexing_repr i).
Proof.
  intros [z|a b c| |l]; cbn [indexing_repr].
  - constructor. apply int_expr_repr.
  - destruct c as [z|].
    + constructor; [apply bound_expr_repr|apply bound_expr_repr|exact (bound_expr_repr (Some z))].
    + rewrite app_nil_s. constructor; apply bound_expr_repr.
  - constructor.
  - destruct l as [|z l]; [constructor|]. constructor. apply series_expr_join; [apply int_expr_repr|discriminate].
Qed.
Lemma repr_expr : forall c v, match v with VOne _ => True | VTuple l => (2 <= List.length l)%nat end -> slice_expr c v (slice_repr c v).
Proof.
  intros c v H. assert (E : value_expr v (py_join ", " (map indexing_repr match v with VOne i => [i] | VTuple l => l end))).
  { destruct v as [i|[|i [|j l]]]; [constructor; apply item_expr_repr|cbn in H; lia|cbn in H; lia|]. constructor. apply series_expr_join; [apply item_expr_repr|discriminate]. }
  unfold slice_repr. destruct c; [exact (sx_id _ _ E)|exact (sx_index _ _ E)].
Qed.
