(** Lemmas about the listing of datasets: CSV text. *)
From Verif Require Import Base PyStr M_Cxi M_Crystfel M_Repr M_H5Index S_Info S_Open M_Stacking S_Stacking L_Cxi7 S_H5Index L_Base L_Open L_Lsxfel L_Info L_Repr L_H5Index.
Set Implicit Arguments.
Unset Strict Implicit.
Local Open Scope string_scope.
Local Open Scope list_scope.

Definition plain (c : ascii) : Prop := special c = false.
Lemma special_or c : special c = true <-> (c = "," \/ c = """" \/ c = "013" \/ c = "010")%char.
Proof.
  unfold special. rewrite !orb_true_iff, !Ascii.eqb_eq. change comma with ","%char. change quote with """"%char. change cr with "013"%char. change lf with "010"%char. tauto.
Qed.
(** What follows a field: a comma or the end of the record. *)
Definition after (c : ascii) (f : string) (row : list string) (rows : list (list string)) (r : string) : list (list string) :=
  if Ascii.eqb c "," then csv_go StartField "" (row ++ [f]) rows r else csv_go AfterCR "" [] (rows ++ [row ++ [f]]) r.
Lemma step_end st f row rows c r : (st = StartField \/ st = InField \/ st = AfterQuote) -> (c = "," \/ c = "013")%char -> csv_go st f row rows (String c r) = after c f row rows r.
Proof. intros [->|[->| ->]] [->| ->]; reflexivity. Qed.
Lemma step_plain st f row rows c r : (st = StartField \/ st = InField) -> special c = false -> csv_go st f row rows (String c r) = csv_go InField (f ++ String c "") row rows r.
Proof.
  intros H N. assert (X : Ascii.eqb c "," = false /\ Ascii.eqb c """" = false /\ Ascii.eqb c "013" = false /\ Ascii.eqb c "010" = false).
  { unfold special in N. apply orb_false_iff in N. destruct N as [N N4]. apply orb_false_iff in N. destruct N as [N N3]. apply orb_false_iff in N. destruct N as [N1 N2]. auto. }
  destruct X as (E1 & E2 & E3 & E4). destruct H as [->| ->]; cbn [csv_go]; rewrite ?E1, ?E2, ?E3, ?E4; reflexivity.
Qed.
Lemma app_one f c v : ((f ++ String c "") ++ v)%string = (f ++ String c v)%string.
Proof. rewrite append_assoc_s. reflexivity. Qed.
Lemma read_plain v : forall st f row rows c r, (st = StartField \/ st = InField) -> any_char special v = false -> (c = "," \/ c = "013")%char ->
  csv_go st f row rows (v ++ String c r) = after c (f ++ v) row rows r.
Proof.
  induction v as [|a v IH]; intros st f row rows c r S N C.
  - cbn [append]. rewrite app_nil_s. apply step_end; tauto.
  - cbn [any_char] in N. apply orb_false_iff in N. destruct N as [N1 N2]. cbn [append]. rewrite (step_plain f row rows _ S N1). rewrite IH by auto. rewrite app_one. reflexivity.
Qed.
Lemma read_quoted v : forall f row rows c r, (c = "," \/ c = "013")%char -> csv_go InQuotes f row rows (double_quotes v ++ String quote (String c r)) = after c (f ++ v) row rows r.
Proof.
  induction v as [|a v IH]; intros f row rows c r C.
  - cbn [double_quotes append]. rewrite app_nil_s. change (csv_go InQuotes f row rows (String quote (String c r))) with (csv_go AfterQuote f row rows (String c r)). apply step_end; tauto.
  - cbn [double_quotes]. destruct (Ascii.eqb a quote) eqn:E.
    + apply Ascii.eqb_eq in E. subst a. cbn [append].
      change (csv_go InQuotes f row rows (String quote (String quote (double_quotes v ++ String quote (String c r))))) with (csv_go InQuotes (f ++ """") row rows (double_quotes v ++ String quote (String c r))).
      rewrite IH by exact C. change """" with (String quote ""). rewrite app_one. reflexivity.
    + cbn [append]. assert (X : csv_go InQuotes f row rows (String a (double_quotes v ++ String quote (String c r))) = csv_go InQuotes (f ++ String a "") row rows (double_quotes v ++ String quote (String c r))).
      { change quote with """"%char in E. cbn [csv_go]. rewrite E. reflexivity. }
      rewrite X, IH by exact C. rewrite app_one. reflexivity.
Qed.
Lemma read_field v row rows c r : (c = "," \/ c = "013")%char -> csv_go StartField "" row rows (csv_field v ++ String c r) = after c v row rows r.
Proof.
  intros C. unfold csv_field. destruct (any_char special v) eqn:E; [|exact (@read_plain v StartField "" row rows c r (or_introl eq_refl) E C)].
  cbn [append]. rewrite append_assoc_s. cbn [append]. change (csv_go StartField "" row rows (String quote ?s)) with (csv_go InQuotes "" row rows s). apply (read_quoted v ""). exact C.
Qed.
Lemma start_field v rows c r : c = ","%char \/ (v <> "" /\ c = "013"%char) -> csv_go StartRecord "" [] rows (csv_field v ++ String c r) = csv_go StartField "" [] rows (csv_field v ++ String c r).
Proof.
  intros C. unfold csv_field. destruct (any_char special v) eqn:E; [reflexivity|]. destruct v as [|a v].
  - destruct C as [->|[C _]]; [reflexivity|congruence].
  - cbn [any_char] in E. apply orb_false_iff in E. destruct E as [E _]. assert (X : Ascii.eqb a "013" = false /\ Ascii.eqb a "010" = false).
    { unfold special in E. apply orb_false_iff in E. destruct E as [E E4]. apply orb_false_iff in E. destruct E as [E E3]. auto. }
    destruct X as [X1 X2]. cbn [append csv_go]. rewrite X1, X2. reflexivity.
Qed.
Lemma read_fields l : forall row rows r, l <> [] -> csv_go StartField "" row rows (py_join "," (map csv_field l) ++ String cr (String lf r)) = csv_go StartRecord "" [] (rows ++ [row ++ l]) r.
Proof.
  induction l as [|v l IH]; intros row rows r N; [congruence|]. destruct l as [|v2 l].
  - cbn [map py_join]. rewrite (@read_field v row rows cr) by (right; reflexivity). reflexivity.
  - change (py_join "," (map csv_field (v :: v2 :: l))) with (csv_field v ++ "," ++ py_join "," (map csv_field (v2 :: l)))%string. rewrite !append_assoc_s. cbn [append].
    rewrite read_field by now left. cbn [after]. change (after ","%char v row rows ?s) with (csv_go StartField "" (row ++ [v]) rows s). rewrite IH by discriminate. rewrite <- app_assoc. reflexivity.
Qed.
Lemma read_row v l rows r : l <> [] -> csv_go StartRecord "" [] rows (csv_row (v :: l) ++ r) = csv_go StartRecord "" [] (rows ++ [v :: l]) r.
Proof.
  intros N. unfold csv_row. rewrite append_assoc_s. cbn [append]. change (csv_go StartRecord "" [] (rows ++ [v :: l]) r) with (csv_go StartRecord "" [] (rows ++ [[] ++ v :: l]) r). rewrite <- (@read_fields (v :: l) [] rows r) by discriminate.
  destruct l as [|v2 l]; [congruence|]. change (py_join "," (map csv_field (v :: v2 :: l))) with (csv_field v ++ "," ++ py_join "," (map csv_field (v2 :: l)))%string. rewrite !append_assoc_s. cbn [append].
  apply start_field. now left.
Qed.
Lemma concat_cons x l : String.concat "" (x :: l) = (x ++ String.concat "" l)%string.
Proof. destruct l; cbn [String.concat]; [now rewrite app_nil_s|reflexivity]. Qed.
Lemma read_rows A (f : A -> string * list string) l : (forall a, In a l -> snd (f a) <> []) -> forall rows,
  csv_go StartRecord "" [] rows (String.concat "" (map (fun a => csv_row (fst (f a) :: snd (f a))) l)) = rows ++ map (fun a => fst (f a) :: snd (f a)) l.
Proof.
  induction l as [|a l IH]; intros H rows; [cbn; now rewrite app_nil_r|]. cbn [map]. rewrite concat_cons, read_row by (apply H; now left). rewrite IH by (intros b Hb; apply H; now right). rewrite <- app_assoc. reflexivity.
Qed.

(** ** Shapes *)
Fixpoint tail_text (l : list Z) : string := match l with [] => ")" | x :: r => (", " ++ int_repr x ++ tail_text r)%string end.
Lemma tail_nd l : no_digit_first (tail_text l).
Proof. destruct l; reflexivity. Qed.
Lemma join_tail x l : (py_join ", " (map int_repr (x :: l)) ++ ")")%string = (int_repr x ++ tail_text l)%string.
Proof.
  revert x. induction l as [|y l IH]; intros x; [reflexivity|]. change (py_join ", " (map int_repr (x :: y :: l))) with (int_repr x ++ ", " ++ py_join ", " (map int_repr (y :: l)))%string.
  rewrite !append_assoc_s, IH. reflexivity.
Qed.
Lemma tail_inj l : forall l', tail_text l = tail_text l' -> l = l'.
Proof.
  induction l as [|x l IH]; intros [|y l'] H; cbn [tail_text append] in H; try discriminate; [reflexivity|]. injection H as H.
  destruct (@int_repr_inj x y (tail_text l) (tail_text l')) as [-> E]; auto using tail_nd. f_equal. auto.
Qed.
Lemma shape_text_inj s s' : shape_text s = shape_text s' -> s = s'.
Proof.
  assert (N : forall x, int_repr x <> "") by (intros x; destruct (int_first x) as (c & r & -> & _); discriminate).
  assert (F : forall x t, (")" : string) <> (int_repr x ++ t)%string). { intros x t. destruct (int_first x) as (c & r & -> & [->|H]); cbn; [discriminate|]. intros E. injection E as <- _. discriminate. }
  assert (T : forall x y l l', shape_text (Some (x :: y :: l)) = ("(" ++ int_repr x ++ tail_text (y :: l))%string /\ (l' = l' :> list Z)).
  { intros x y l l'. split; [|reflexivity]. cbn [shape_text]. rewrite join_tail. reflexivity. }
  destruct s as [[|x [|y l]]|], s' as [[|x' [|y' l']]|]; intros H; try reflexivity; try rewrite (proj1 (T x y l l)) in H; try rewrite (proj1 (T x' y' l' l')) in H; cbn [shape_text append] in H; try discriminate; injection H as H.
  - exfalso. now apply F in H.
  - exfalso. now apply F in H.
  - symmetry in H. exfalso. now apply F in H.
  - destruct (@int_repr_inj x x' ",)" ",)") as [-> _]; [reflexivity|reflexivity|exact H|reflexivity].
  - exfalso. destruct (@int_repr_inj x x' ",)" (tail_text (y' :: l'))) as [_ E]; [reflexivity|reflexivity|exact H|discriminate].
  - symmetry in H. exfalso. now apply F in H.
  - exfalso. destruct (@int_repr_inj x x' (tail_text (y :: l)) ",)") as [_ E]; [reflexivity|reflexivity|exact H|discriminate].
  - destruct (@int_repr_inj x x' (tail_text (y :: l)) (tail_text (y' :: l'))) as [-> E]; [reflexivity|reflexivity|exact H|]. apply tail_inj in E. injection E as -> ->. reflexivity.
Qed.
