(** Lemmas on the text of CrystFEL geometry files. *)

From Coq Require Import QArith.
From Verif Require Import Base PyStr M_Stacking S_Stacking S_Open L_Base M_Cxi L_Cxi7 M_Geom S_Geom L_Geom1 L_Geom4 M_Crystfel S_Crystfel L_Crystfel L_Crystfel2
  M_Repr M_InfoText M_CrystText S_CrystText.

Set Implicit Arguments.
Unset Strict Implicit.
Local Open Scope string_scope.
Local Open Scope Z_scope.
Local Open Scope list_scope.

(** ** Blanks *)
Lemma sapp_assoc : forall a b c : string, ((a ++ b) ++ c = a ++ (b ++ c))%string.
Proof. induction a as [|x a IH]; intros b c; cbn; [reflexivity|]. now rewrite IH. Qed.
Lemma sapp_nil : forall a : string, (a ++ "" = a)%string.
Proof. induction a as [|x a IH]; cbn; [reflexivity|]. now rewrite IH. Qed.
Lemma rstrip_blank : forall s, rstrip (s ++ " ")%string = rstrip s.
Proof. induction s as [|c s IH]; [reflexivity|]. cbn. now rewrite IH. Qed.
Lemma rstrip_last : forall s c, blank c = false -> rstrip (s ++ String c "")%string = (s ++ String c "")%string.
Proof.
  induction s as [|x s IH]; intros c H; cbn; [now rewrite H|]. rewrite IH by assumption. destruct s; reflexivity.
Qed.
Lemma no_blank_strip : forall s, (forall c, has_char c s -> blank c = false) -> lstrip s = s /\ rstrip s = s.
Proof.
  induction s as [|x s IH]; intros H; [auto|]. assert (Hx : blank x = false) by (apply H; cbn; now left).
  destruct IH as [_ IH]; [intros c I; apply H; cbn; now right|]. cbn. rewrite Hx, IH. split; [reflexivity|]. destruct s; reflexivity.
Qed.
Definition ok_text (v : string) : Prop := ~ has_char ";" v /\ ~ has_char newline_char v /\ lstrip v = v /\ rstrip v = v.
Lemma ok_word : forall s, word s -> ok_text s.
Proof.
  intros s H. split; [intros I; apply H in I; tauto|]. split; [intros I; apply H in I; tauto|]. apply no_blank_strip. intros c I. now apply H.
Qed.
Lemma strip_word : forall s, word s -> strip (s ++ " ")%string = s.
Proof.
  intros s H. unfold strip. destruct (ok_word H) as (_ & _ & L & R). destruct s as [|c s]; [reflexivity|].
  assert (B : blank c = false) by (apply H; cbn; now left). cbn [append lstrip]. rewrite B. change (String c (s ++ " ")) with ((String c s) ++ " ")%string. now rewrite rstrip_blank.
Qed.
Lemma strip_value : forall v, ok_text v -> strip (String " " v) = v /\ strip (String " " (v ++ " ")) = v.
Proof.
  intros v (_ & _ & L & R). unfold strip. cbn [lstrip]. cbn [blank Ascii.eqb Bool.eqb orb]. split; [now rewrite L|].
  destruct v as [|c v]; [reflexivity|]. cbn [append lstrip] in *. destruct (blank c) eqn:B.
  - exfalso. assert (K : forall s, (String.length (lstrip s) <= String.length s)%nat).
    { induction s as [|x s IH]; cbn; [lia|]. destruct (blank x); cbn; lia. }
    specialize (K v). rewrite L in K. cbn in K. lia.
  - change (String c (v ++ " ")) with ((String c v) ++ " ")%string. now rewrite rstrip_blank.
Qed.

(** ** Words *)
Definition wordb_char (c : ascii) : bool := negb (blank c) && negb (Ascii.eqb c newline_char) && negb (Ascii.eqb c ";") && negb (Ascii.eqb c "=").
Fixpoint wordb (s : string) : bool := match s with "" => true | String c r => wordb_char c && wordb r end.
Lemma wordb_ok : forall s, wordb s = true -> word s.
Proof.
  induction s as [|x s IH]; intros H c I; [destruct I|]. cbn [wordb] in H. apply andb_true_iff in H as [H1 H2]. destruct I as [<-|I]; [|now apply IH].
  unfold wordb_char in H1. rewrite !andb_true_iff, !negb_true_iff in H1. destruct H1 as [[[A B] C] D]. apply Ascii.eqb_neq in B, C, D. auto.
Qed.
Lemma word_app : forall a b, word a -> word b -> word (a ++ b)%string.
Proof. intros a b Ha Hb c I. apply has_char_app in I as [I|I]; auto. Qed.
Lemma word_digits : forall s, all_digits s -> word s.
Proof.
  intros s H c I. apply (digits_char H) in I. unfold is_digit in I. apply andb_true_iff in I as [I1 I2]. apply Nat.leb_le in I1, I2.
  assert (K : forall d, (nat_of_ascii d < 48 \/ 57 < nat_of_ascii d)%nat -> c <> d) by (intros d K ->; lia).
  split; [unfold blank; apply orb_false_iff; split; apply Ascii.eqb_neq; apply K; cbn; lia|]. split; [apply K; cbn; lia|]. split; apply K; cbn; lia.
Qed.
Lemma word_int : forall z, word (str_of_int z).
Proof.
  intros z. destruct (Z_lt_le_dec z 0) as [H|H]; [|apply word_digits, str_of_int_spec; lia].
  replace (str_of_int z) with "0"; [apply wordb_ok; reflexivity|]. unfold str_of_int. rewrite Z.log2_nonpos by lia. cbn [Z.to_nat digits_of].
  replace (z <? 10) with true by (symmetry; apply Z.ltb_lt; lia). unfold digit_char. replace (Z.to_nat z) with 0%nat by lia. reflexivity.
Qed.
Lemma word_repr : forall z, word (int_repr z).
Proof. intros z. unfold int_repr. destruct (z <? 0); [|apply word_int]. change (String "-" (str_of_int (- z))) with ("-" ++ str_of_int (- z))%string. apply word_app; [apply wordb_ok; reflexivity|apply word_int]. Qed.
Lemma word_panel : forall p a, word (panel_name p a).
Proof. intros p a. unfold panel_name. apply word_app; [apply wordb_ok; reflexivity|]. apply word_app; [apply word_int|]. apply word_app; [apply wordb_ok; reflexivity|apply word_int]. Qed.
Lemma word_join : forall l, (forall x, In x l -> word x) -> word (py_join "," l).
Proof.
  induction l as [|x l IH]; intros H; [apply wordb_ok; reflexivity|]. destruct l as [|y l]; [apply H; now left|].
  change (py_join "," (x :: y :: l)) with (x ++ "," ++ py_join "," (y :: l))%string. apply word_app; [apply H; now left|]. apply word_app; [apply wordb_ok; reflexivity|]. apply IH. intros z I. apply H. now right.
Qed.

(** ** Entries of lines *)
Definition one_line (s : string) : Prop := ~ has_char newline_char s.
Definition says (ls : list string) (es : list (string * string)) : Prop := Forall one_line ls /\ flat_map line_entry ls = es.
Lemma says_nil : says [] []. Proof. split; [constructor|reflexivity]. Qed.
Lemma says_app : forall a b x y, says a x -> says b y -> says (a ++ b) (x ++ y).
Proof. intros a b x y [H1 <-] [H2 <-]. split; [apply Forall_app; auto|]. apply flat_map_app. Qed.
Lemma says_cons : forall l ls e es, one_line l -> line_entry l = e -> says ls es -> says (l :: ls) (e ++ es).
Proof. intros l ls e es H1 H2 [H3 <-]. split; [now constructor|]. cbn. now rewrite H2. Qed.
Lemma says_none : forall l ls es, one_line l -> line_entry l = [] -> says ls es -> says (l :: ls) es.
Proof. intros l ls es H1 H2 H3. exact (says_cons H1 H2 H3). Qed.
Lemma says_one : forall l ls k v es, one_line l -> line_entry l = [(k, v)] -> says ls es -> says (l :: ls) ((k, v) :: es).
Proof. intros l ls k v es H1 H2 H3. exact (says_cons H1 H2 H3). Qed.
Lemma says_flat : forall A (f : A -> list string) (g : A -> list (string * string)) l, (forall a, In a l -> says (f a) (g a)) -> says (flat_map f l) (flat_map g l).
Proof. induction l as [|x l IH]; intros H; [apply says_nil|]. cbn [flat_map]. apply says_app; [apply H; now left|]. apply IH. intros a I. apply H. now right. Qed.
Lemma says_map : forall A (f : A -> string) (g : A -> string * string) l, (forall a, In a l -> one_line (f a) /\ line_entry (f a) = [g a]) -> says (map f l) (map g l).
Proof.
  induction l as [|x l IH]; intros H; [apply says_nil|]. cbn [map]. destruct (H x (or_introl eq_refl)) as [H1 H2]. destruct (g x) as [k v] eqn:E. apply says_one; [assumption|assumption|]. apply IH. intros a I. apply H. now right.
Qed.
Lemma says_text : forall ls es, says ls es -> text_entries (print_lines ls) = es.
Proof.
  intros ls es [H <-]. unfold text_entries. induction H as [|l ls H1 H2 IH]; [reflexivity|]. cbn [print_lines fold_right flat_map].
  change (l ++ newline ++ fold_right (fun a r => (a ++ newline ++ r)%string) "" ls)%string with (l ++ String newline_char (print_lines ls))%string.
  rewrite split_app by exact H1. cbn [flat_map]. now rewrite IH.
Qed.
Lemma one_line_app : forall a b, one_line a -> one_line b -> one_line (a ++ b)%string.
Proof. intros a b Ha Hb I. apply has_char_app in I as [I|I]; auto. Qed.
Lemma one_line_word : forall a, word a -> one_line a.
Proof. intros a H I. apply H in I. tauto. Qed.
Fixpoint one_lineb (s : string) : bool := match s with "" => true | String c r => negb (Ascii.eqb c newline_char) && one_lineb r end.
Lemma one_lineb_ok : forall s, one_lineb s = true -> one_line s.
Proof.
  induction s as [|x s IH]; intros H I; [destruct I|]. cbn in H. apply andb_true_iff in H as [H1 H2]. destruct I as [E|I]; [|now apply IH]. apply negb_true_iff, Ascii.eqb_neq in H1. now apply H1.
Qed.
Lemma no_char_app : forall c a b, ~ has_char c a -> ~ has_char c b -> ~ has_char c (a ++ b)%string.
Proof. intros c a b Ha Hb I. apply has_char_app in I as [I|I]; auto. Qed.
Lemma entry_of : forall k v, word k -> ok_text v -> one_line (k ++ " = " ++ v) /\ line_entry (k ++ " = " ++ v) = [(k, v)].
Proof.
  intros k v Hk Hv. destruct Hv as (V1 & V2 & V3). split.
  - apply one_line_app; [now apply one_line_word|]. apply one_line_app; [apply one_lineb_ok; reflexivity|exact V2].
  - unfold line_entry. rewrite (@partition_none ";" (k ++ " = " ++ v)%string).
    2: { apply no_char_app; [intros I; apply Hk in I; tauto|]. apply no_char_app; [cbn; intuition discriminate|exact V1]. }
    cbn [fst]. replace (k ++ " = " ++ v)%string with ((k ++ " ") ++ String "=" (String " " v))%string by (rewrite sapp_assoc; reflexivity).
    rewrite partition_app. 2: { apply no_char_app; [intros I; apply Hk in I; tauto|cbn; intuition discriminate]. }
    rewrite strip_word by assumption. rewrite (proj1 (@strip_value v (conj V1 (conj V2 V3)))). reflexivity.
Qed.
Lemma entry_semi : forall k v rest, word k -> ok_text v -> one_line rest -> one_line (k ++ " = " ++ v ++ " ;" ++ rest) /\ line_entry (k ++ " = " ++ v ++ " ;" ++ rest) = [(k, v)].
Proof.
  intros k v rest Hk Hv Hr. destruct Hv as (V1 & V2 & V3). split.
  - apply one_line_app; [now apply one_line_word|]. apply one_line_app; [apply one_lineb_ok; reflexivity|]. apply one_line_app; [exact V2|]. apply one_line_app; [apply one_lineb_ok; reflexivity|exact Hr].
  - unfold line_entry. replace (k ++ " = " ++ v ++ " ;" ++ rest)%string with ((k ++ " = " ++ v ++ " ") ++ String ";" rest)%string by (rewrite !sapp_assoc; reflexivity).
    rewrite (@partition_app ";").
    2: { apply no_char_app; [intros I; apply Hk in I; tauto|]. apply no_char_app; [cbn; intuition discriminate|]. apply no_char_app; [exact V1|cbn; intuition discriminate]. }
    cbn [fst]. replace (k ++ " = " ++ v ++ " ")%string with ((k ++ " ") ++ String "=" (String " " (v ++ " ")))%string by (rewrite sapp_assoc; reflexivity).
    rewrite partition_app. 2: { apply no_char_app; [intros I; apply Hk in I; tauto|cbn; intuition discriminate]. }
    rewrite strip_word by assumption. rewrite (proj2 (@strip_value v (conj V1 (conj V2 V3)))). reflexivity.
Qed.
(** The key is made of two parts. *)
Lemma entry_at : forall n k v, word n -> word k -> ok_text v -> one_line (n ++ (k ++ " = " ++ v)) /\ line_entry (n ++ (k ++ " = " ++ v)) = [((n ++ k)%string, v)].
Proof. intros n k v Hn Hk Hv. rewrite <- sapp_assoc. apply entry_of; [now apply word_app|assumption]. Qed.

(** ** The texts of values *)
Section Values.
Variable num_text : Q -> string.
Variable read_num : string -> option Q.
Definition value_text (v : cfval) : string :=
  match v with
  | CText s => s
  | CInt z => int_repr z
  | CNum q => num_text q
  | CVec x y z => (plus_text num_text x ++ "x " ++ plus_text num_text y ++ "y" ++ match z with None => "" | Some q => " " ++ plus_text num_text q ++ "z" end)%string
  end.
Notation good := (good_number num_text read_num).
Lemma vec_value : forall v, vec_text num_text v = value_text (format_vec v).
Proof. intros v. unfold vec_text, format_vec, value_text. destruct (Qeq_bool (vz v) 0); reflexivity. Qed.
Lemma word_plus : forall q, good q -> word (plus_text num_text q).
Proof. intros q (H & _). unfold plus_text. destruct (Qle_bool 0 q); [|assumption]. apply word_app; [apply wordb_ok; reflexivity|assumption]. Qed.
Lemma read_plus : forall q, good q -> exists q', read_signed read_num (plus_text num_text q) = Some q' /\ (q' == q)%Q.
Proof.
  intros q (_ & H & q' & E & K). exists q'. split; [|assumption]. unfold plus_text. destruct (Qle_bool 0 q); [exact E|]. unfold read_signed.
  destruct (num_text q) as [|[[] [] [] [] [] [] [] []] r] eqn:N; try exact E. exfalso. exact (H r eq_refl).
Qed.
Lemma drop_last_app : forall s c, drop_last c (s ++ String c "")%string = Some s.
Proof.
  induction s as [|x s IH]; intros c; [cbn; now rewrite Ascii.eqb_refl|]. specialize (IH c). destruct s as [|y s]; cbn in *; [now rewrite Ascii.eqb_refl|]. now rewrite IH.
Qed.
Lemma no_space : forall s, word s -> ~ has_char " " s.
Proof. intros s H I. apply H in I as [I _]. discriminate. Qed.
Lemma read_vec_text : forall x y z, good x -> good y -> match z with Some q => good q | None => True end ->
  exists v, read_vec read_num (value_text (CVec x y z)) = Some v /\ same_value v (CVec x y z).
Proof.
  intros x y z Hx Hy Hz. destruct (read_plus Hx) as (x' & Ex & Qx). destruct (read_plus Hy) as (y' & Ey & Qy).
  unfold read_vec, value_text. 
  replace (plus_text num_text x ++ "x " ++ plus_text num_text y ++ "y" ++ match z with None => "" | Some q => " " ++ plus_text num_text q ++ "z" end)%string
    with ((plus_text num_text x ++ "x") ++ String " " ((plus_text num_text y ++ "y") ++ match z with None => "" | Some q => " " ++ plus_text num_text q ++ "z" end))%string by (rewrite !sapp_assoc; reflexivity).
  rewrite split_app by (apply no_space, word_app; [now apply word_plus|apply wordb_ok; reflexivity]).
  destruct z as [z|].
  - destruct (read_plus Hz) as (z' & Ez & Qz). change (" " ++ plus_text num_text z ++ "z")%string with (String " " (plus_text num_text z ++ "z")).
    rewrite split_app by (apply no_space, word_app; [now apply word_plus|apply wordb_ok; reflexivity]).
    rewrite split_none by (apply no_space, word_app; [now apply word_plus|apply wordb_ok; reflexivity]).
    unfold read_part. rewrite !drop_last_app, Ex, Ey, Ez. eexists. split; [reflexivity|]. cbn. auto.
  - rewrite sapp_nil. rewrite split_none by (apply no_space, word_app; [now apply word_plus|apply wordb_ok; reflexivity]).
    unfold read_part. rewrite !drop_last_app, Ex, Ey. eexists. split; [reflexivity|]. cbn. auto.
Qed.
Lemma lstrip_first : forall a b, word a -> a <> "" -> lstrip (a ++ b)%string = (a ++ b)%string.
Proof. intros [|c a] b H N; [congruence|]. cbn. destruct (H c) as [-> _]; [cbn; now left|]. reflexivity. Qed.
Lemma ok_vec : forall x y z, good x -> good y -> match z with Some q => good q | None => True end -> ok_text (value_text (CVec x y z)).
Proof.
  intros x y z Hx Hy Hz. unfold value_text. assert (NS : forall s c, word s -> c = ";"%char \/ c = newline_char -> ~ has_char c s) by (intros s c W [-> | ->] I; apply W in I; tauto).
  assert (NC : forall c, c = ";"%char \/ c = newline_char -> ~ has_char c (plus_text num_text x ++ "x " ++ plus_text num_text y ++ "y" ++ match z with None => "" | Some q => " " ++ plus_text num_text q ++ "z" end)%string).
  { intros c Hc. apply no_char_app; [apply NS; [now apply word_plus|assumption]|]. apply no_char_app; [destruct Hc as [-> | ->]; cbn; intuition discriminate|].
    apply no_char_app; [apply NS; [now apply word_plus|assumption]|]. apply no_char_app; [destruct Hc as [-> | ->]; cbn; intuition discriminate|].
    destruct z as [z|]; [|intros []]. apply no_char_app; [destruct Hc as [-> | ->]; cbn; intuition discriminate|]. apply no_char_app; [apply NS; [now apply word_plus|assumption]|destruct Hc as [-> | ->]; cbn; intuition discriminate]. }
  split; [apply NC; now left|]. split; [apply NC; now right|]. split.
  - replace (plus_text num_text x ++ "x " ++ plus_text num_text y ++ "y" ++ match z with None => "" | Some q => " " ++ plus_text num_text q ++ "z" end)%string
      with ((plus_text num_text x ++ "x") ++ (" " ++ plus_text num_text y ++ "y" ++ match z with None => "" | Some q => " " ++ plus_text num_text q ++ "z" end))%string by (rewrite !sapp_assoc; reflexivity).
    apply lstrip_first; [apply word_app; [now apply word_plus|apply wordb_ok; reflexivity]|]. destruct (plus_text num_text x); discriminate.
  - destruct z as [z|].
    + replace (plus_text num_text x ++ "x " ++ plus_text num_text y ++ "y" ++ " " ++ plus_text num_text z ++ "z")%string with ((plus_text num_text x ++ "x " ++ plus_text num_text y ++ "y" ++ " " ++ plus_text num_text z) ++ "z")%string by (rewrite !sapp_assoc; reflexivity).
      now apply rstrip_last.
    + replace (plus_text num_text x ++ "x " ++ plus_text num_text y ++ "y" ++ "")%string with ((plus_text num_text x ++ "x " ++ plus_text num_text y) ++ "y")%string by (rewrite !sapp_assoc; reflexivity).
      now apply rstrip_last.
Qed.
End Values.
