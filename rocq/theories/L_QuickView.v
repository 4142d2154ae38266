(** Lemmas about QuickView. *)

From Verif Require Import Base L_Base M_QuickView.

Set Implicit Arguments.
Unset Strict Implicit.
Local Open Scope Z_scope.
Local Open Scope list_scope.

Section Q.
Variable A : Type.
Implicit Types (q : qview A) (l : list A).

Lemma display_same : forall q i, qv_data (fst (qv_display q i)) = qv_data q /\ qv_index (fst (qv_display q i)) = qv_index q.
Proof.
  intros q i. unfold qv_display. destruct (qv_data q) as [l|] eqn:E; [|auto].
  destruct (py_index l _); cbn [fst qv_data qv_index]; rewrite ?E; auto.
Qed.

Definition within q : Prop := match qv_data q with Some l => 0 <= qv_index q <= Z.of_nat (List.length l) | None => qv_index q = 0 end.

Lemma step_within : forall q o, within q -> within (fst (qv_step q o)).
Proof.
  intros q o H. unfold within in *. destruct o as [| |z|a|i]; cbn [qv_step].
  - unfold qv_next. destruct (qv_data q) as [l|] eqn:E; [|cbn [fst]; rewrite E; exact H].
    destruct (qv_index q <? _) eqn:C; [|cbn [fst]; rewrite E; exact H]. apply Z.ltb_lt in C.
    destruct (display_same (mk_qview (Some l) (qv_index q + 1) (qv_shown q)) None) as [E1 E2]. rewrite E1, E2. cbn [qv_data qv_index]. lia.
  - unfold qv_prev. destruct (0 <? qv_index q) eqn:C; [|exact H]. apply Z.ltb_lt in C.
    destruct (display_same (mk_qview (qv_data q) (qv_index q - 1) (qv_shown q)) None) as [E1 E2]. rewrite E1, E2. cbn [qv_data qv_index].
    destruct (qv_data q); lia.
  - unfold qv_set_pos. destruct (qv_data q) as [l|] eqn:E; [|cbn [fst]; rewrite E; exact H].
    destruct ((0 <=? z) && (z <? _)) eqn:C; cbn [fst qv_data qv_index]; rewrite ?E; [|exact H].
    apply andb_true_iff in C. rewrite Z.leb_le, Z.ltb_lt in C. lia.
  - unfold qv_set_data. destruct a as [l|]; [|exact H].
    destruct (display_same (mk_qview (Some l) 0 (qv_shown q)) None) as [E1 E2]. rewrite E1, E2. cbn [qv_data qv_index]. lia.
  - destruct (display_same q i) as [E1 E2]. rewrite E1, E2. exact H.
Qed.

Lemma run_within : forall ops, within (qv_run (A := A) ops).
Proof.
  intros ops. unfold qv_run. assert (W : within (qv_new (A := A))) by reflexivity. revert W. generalize (qv_new (A := A)).
  induction ops as [|o ops IH]; intros q W; cbn [fold_left]; [exact W|]. apply IH. apply step_within. exact W.
Qed.

Definition inside q : Prop := exists l, qv_data q = Some l /\ 0 <= qv_index q < Z.of_nat (List.length l).

Lemma step_inside : forall q o, inside q ->
  (o = QNext -> forall l, qv_data q = Some l -> qv_index q <> Z.of_nat (List.length l) - 1) -> (o <> QSetData (Frames [])) ->
  inside (fst (qv_step q o)).
Proof.
  intros q o (l & E & H) HN HD. destruct o as [| |z|a|i]; cbn [qv_step].
  - specialize (HN eq_refl l E). unfold qv_next. rewrite E. destruct (qv_index q <? _) eqn:C; [|exists l; auto]. exists l.
    destruct (display_same (mk_qview (Some l) (qv_index q + 1) (qv_shown q)) None) as [E1 E2]. rewrite E1, E2. cbn [qv_data qv_index].
    split; [reflexivity|lia].
  - unfold qv_prev. destruct (0 <? qv_index q) eqn:C; [|exists l; auto]. apply Z.ltb_lt in C. exists l.
    destruct (display_same (mk_qview (qv_data q) (qv_index q - 1) (qv_shown q)) None) as [E1 E2]. rewrite E1, E2. cbn [qv_data qv_index].
    split; [exact E|lia].
  - unfold qv_set_pos. rewrite E. destruct ((0 <=? z) && (z <? _)) eqn:C; [|exists l; auto]. exists l. cbn [fst qv_data qv_index].
    apply andb_true_iff in C. rewrite Z.leb_le, Z.ltb_lt in C. split; [reflexivity|lia].
  - unfold qv_set_data. destruct a as [l'|]; [|exists l; auto]. exists l'.
    destruct (display_same (mk_qview (Some l') 0 (qv_shown q)) None) as [E1 E2]. rewrite E1, E2. cbn [qv_data qv_index].
    split; [reflexivity|]. destruct l'; [congruence|cbn [List.length]; lia].
  - destruct (display_same q i) as [E1 E2]. exists l. rewrite E1, E2. auto.
Qed.

Lemma py_index_end : forall l, py_index l (Z.of_nat (List.length l)) = Err EIndexError.
Proof.
  intros l. unfold py_index. replace (Z.of_nat (List.length l) <? 0) with false by (symmetry; apply Z.ltb_ge; lia).
  rewrite Z.ltb_irrefl, andb_false_r. reflexivity.
Qed.

Lemma py_index_ok : forall l i, 0 <= i < Z.of_nat (List.length l) -> exists a, nth_error l (Z.to_nat i) = Some a /\ py_index l i = Ok a.
Proof.
  intros l i H. unfold py_index. replace (i <? 0) with false by (symmetry; apply Z.ltb_ge; lia).
  replace (0 <=? i) with true by (symmetry; apply Z.leb_le; lia). replace (i <? Z.of_nat (List.length l)) with true by (symmetry; apply Z.ltb_lt; lia).
  cbn [andb]. destruct (nth_error l (Z.to_nat i)) as [a|] eqn:E; [eauto|]. apply nth_error_None in E. lia.
Qed.

Lemma nexts : forall l s k, (k <= List.length l)%nat -> exists s',
  fold_left (fun q o => fst (qv_step q o)) (repeat QNext k) (mk_qview (Some l) 0 s) = mk_qview (Some l) (Z.of_nat k) s'.
Proof.
  intros l s k. induction k as [|k IH]; intros H; [exists s; reflexivity|]. destruct IH as [s' E]; [lia|].
  assert (R : repeat (@QNext A) (S k) = repeat QNext k ++ [QNext]) by (clear; induction k as [|k IH]; [reflexivity|cbn in *; congruence]).
  rewrite R, fold_left_app, E. cbn [fold_left qv_step]. unfold qv_next. cbn [qv_data qv_index].
  replace (Z.of_nat k <? Z.of_nat (List.length l)) with true by (symmetry; apply Z.ltb_lt; lia).
  unfold qv_display. cbn [qv_data qv_index qv_shown]. replace (Z.of_nat k + 1) with (Z.of_nat (S k)) by lia.
  destruct (py_index l (Z.of_nat (S k))); cbn [fst]; eauto.
Qed.
End Q.
